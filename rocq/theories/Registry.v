(** Object identifiers and the object registry.  Models gsp/object.py and the
    part of gsp/io/command.py and gsp/io/mkdocs.py that touches them. *)
From Verif Require Import Base.
Open Scope Z_scope.

(** An object is a reference into [heap]; [heap] holds the current [_id] of
    every object ever created (objects are never reclaimed in the model).
    - [counter]: next value of [OID.counter], an itertools.count()
      (gsp/object.py:23).
    - [recording]: [Object.record] (gsp/object.py:61).
    - [objects]: [Object.objects] (gsp/object.py:64), id -> object. *)
Definition ref := nat.
(** The variables above, gsp/object.py:23, 61 and 64. *)
Record rstate := mkR {
  counter : Z;
  recording : bool;
  objects : dict Z ref;
  heap : list Z }.

(** Process start: gsp/object.py:23, 61, 64. *)
Definition rinit : rstate := mkR 0 true [] [].

(** [Object.__init__], gsp/object.py:66-69, with [OID.__new__(None)],
    gsp/object.py:25-34: the id is [1 + next(counter)]; if recording, the
    object is registered under it. Returns the new object and its id. *)
Definition create (s : rstate) : rstate * (ref * Z) :=
  let id := 1 + counter s in
  let r := List.length (heap s) in
  (mkR (counter s + 1) (recording s)
       (if recording s then dset (objects s) id r else objects s)
       (heap s ++ [id]),
   (r, id)).

(** The [id] setter, gsp/object.py:75-80.  Setting the id of a dangling
    reference cannot happen in Python; the model leaves the state alone. *)
Definition set_id (s : rstate) (r : ref) (newid : Z) : rstate :=
  match nth_error (heap s) r with
  | None => s
  | Some old =>
      mkR (counter s) (recording s)
          (if dmem (objects s) old then dset (ddel (objects s) old) newid r else objects s)
          (upd (heap s) r newid)
  end.

(** [n] objects created one after the other. Object.__init__, gsp/object.py:66-69. *)
Fixpoint create_n (n : nat) (s : rstate) : rstate :=
  match n with O => s | S m => create_n m (fst (create s)) end.

(** Executing a constructor command, gsp/io/command.py:445-451: the
    constructor runs (creating [pre] other objects before and [post] after the
    object itself, e.g. the operand copies made by gsp/transform/operator.py),
    then [object.id = oid] and [Object.objects[oid] = object].
    Simplification: the constructor does nothing else to the registry. *)
Definition replay (s : rstate) (pre post : nat) (oid : Z) : rstate * ref :=
  let s1 := create_n pre s in
  let '(s2, (r, _)) := create s1 in
  let s3 := create_n post s2 in
  let s4 := set_id s3 r oid in
  (mkR (counter s4) (recording s4) (dset (objects s4) oid r) (heap s4), r).

(** Registry operations a program can perform.
    - [Create]: construct an object (gsp/object.py:66-69).
    - [SetId r n]: [obj.id = n] (gsp/object.py:75-80).
    - [SetRecord b]: [Object.record = b] (gsp/object.py:61).
    - [Clear]: [Object.objects = {}] (gsp/__init__.py:83).
    - [Replay pre post oid]: execute a constructor command.
    - [Mkdocs]: entering the documentation context manager clears the registry
      and restarts the counter (gsp/io/mkdocs.py:19-25). *)
Inductive rop :=
| Create | SetId (r : ref) (n : Z) | SetRecord (b : bool) | Clear
| Replay (pre post : nat) (oid : Z) | Mkdocs.

(** One operation, gsp/object.py:66-80. *)
Definition rstep (s : rstate) (o : rop) : rstate :=
  match o with
  | Create => fst (create s)
  | SetId r n => set_id s r n
  | SetRecord b => mkR (counter s) b (objects s) (heap s)
  | Clear => mkR (counter s) (recording s) [] (heap s)
  | Replay pre post oid => fst (replay s pre post oid)
  | Mkdocs => mkR 0 (recording s) [] (heap s)
  end.

(** Operations one after the other, gsp/object.py:66-80. *)
Definition rrun (s : rstate) (ops : list rop) : rstate := fold_left rstep ops s.

(** Identifiers drawn from the counter by one operation, in order
    (the observable is the [id] each new object has right after
    [Object.__init__]). [n] objects created, gsp/object.py:25-34. *)
Fixpoint drawn_n (n : nat) (s : rstate) : list Z :=
  match n with O => [] | S m => snd (snd (create s)) :: drawn_n m (fst (create s)) end.
(** By one operation, gsp/object.py:25-34. *)
Definition drawn1 (s : rstate) (o : rop) : list Z :=
  match o with
  | Create => drawn_n 1 s
  | Replay pre post _ => drawn_n (pre + 1 + post) s
  | _ => []
  end.
(** By operations one after the other, gsp/object.py:25-34. *)
Fixpoint drawn (s : rstate) (ops : list rop) : list Z :=
  match ops with
  | [] => []
  | o :: r => drawn1 s o ++ drawn (rstep s o) r
  end.

(** What [Object.objects[k]] (or [.get(k)]) returns. gsp/object.py:64. *)
Definition lookup (s : rstate) (k : Z) : option ref := dget (objects s) k.
(** [obj.id] gsp/object.py:71-73. *)
Definition id_of (s : rstate) (r : ref) : option Z := nth_error (heap s) r.

(** Replaying a list of recorded constructor commands
    (gsp/io/command.py:150-154 restricted to constructors).  Returns the final
    state and, for each command, the object it built. *)
Fixpoint replay_all (s : rstate) (l : list (nat * nat * Z)) : rstate * list ref :=
  match l with
  | [] => (s, [])
  | (pre, post, oid) :: rest =>
      let '(s1, r) := replay s pre post oid in
      let '(s2, rs) := replay_all s1 rest in
      (s2, r :: rs)
  end.

(** ** Equality and hashing *)

(** An object as seen by [==] and [hash]: its class and [vars(self)] without
    [_id] (kept apart).  Attribute values are compared with their own
    equality; they are integers here, which is enough to tell them apart. gsp/object.py:82-93. *)
Record pyobj := mkO { cls : string; oid_ : Z; attrs : list (string * Z) }.

(** [Object.__hash__], gsp/object.py:82-83. *)
Definition py_hash (o : pyobj) : Z := oid_ o.

(** The loop of [Object.__eq__], gsp/object.py:90-93: [getattr(other, key)]
    raises AttributeError if [other] lacks the attribute. *)
Fixpoint eq_loop (keys : list (string * Z)) (other : pyobj) : res bool :=
  match keys with
  | [] => Ok true
  | (k, v) :: r =>
      match dget (attrs other) k with
      | None => Err AttributeError
      | Some v' => if Z.eqb v v' then eq_loop r other else Ok false
      end
  end.
(** [Object.__eq__], gsp/object.py:85-93. *)
Definition py_eq (a b : pyobj) : res bool :=
  if negb (String.eqb (cls a) (cls b)) then Ok false else eq_loop (attrs a) b.
