(** Recorded methods that call recorded methods: the decorator of gsp/io/command.py:192-303
    around any bodies, and the replay of what it recorded.

    Simplifications: the state of all objects is one value; a call is its object, method and
    arguments together; what is saved of a command is the call (Command.v and Session.v
    follow identifiers and conversions).  Recursion may not end: functions have a bound on
    the number of steps and give None when it is reached. *)
From Verif Require Import Base.

Section Nested.
Context {St Cl : Type}.

(** The body of a method: a python function.  [Call quiet c k] is a call of a recorded
    method, with the keyword __no_command__ when [quiet] (command.py:205-208); [k] is told
    whether it returned, as a try statement would.
    func of gsp/io/command.py:199. *)
Inductive body :=
| Return
| Raise
| Change (f : St -> St) (k : body)
| Read (k : St -> body)
| Call (quiet : bool) (c : Cl) (k : bool -> body).

Section Run.
(** [func]: the body of each call. *)
Variable meth : Cl -> body.
(** Whether the arguments are of the annotated types, command.py:250-294. *)
Variable proper : Cl -> bool.

(** A body, with the recorder on: the state after it, the calls pushed, and whether it
    returned.  The body of a call comes first (command.py:210), then its arguments are
    checked (250-294), then it is pushed (296-300). *)
Fixpoint exec (n : nat) (s : St) (b : body) : option (St * list Cl * bool) :=
  match n with
  | O => None
  | S n =>
      match b with
      | Return => Some (s, [], true)
      | Raise => Some (s, [], false)
      | Change f k => exec n (f s) k
      | Read k => exec n s (k s)
      | Call quiet c k =>
          match exec n s (meth c) with
          | None => None
          | Some (s1, l1, ok) =>
              let ok := ok && proper c in
              let l1 := if ok && negb quiet then (l1 ++ [c])%list else l1 in
              match exec n s1 (k ok) with
              | None => None
              | Some (s2, l2, ok2) => Some (s2, (l1 ++ l2)%list, ok2)
              end
          end
      end
  end.
(** A program that makes these calls one after the other, going on when one raises.
    As in examples/io_saveload.py:60-62. *)
Fixpoint script (cs : list Cl) : body :=
  match cs with [] => Return | c :: r => Call false c (fun _ => script r) end.
(** What such a program leaves, command.py:202-300. *)
Definition record (n : nat) (s : St) (cs : list Cl) : option (St * list Cl) :=
  match exec n s (script cs) with Some (s', l, _) => Some (s', l) | None => None end.
(** CommandQueue.run, command.py:150-154, with the queue active: it is read-only, so that
    nothing is pushed; the first call that raises ends it. *)
Fixpoint replay (n : nat) (s : St) (cs : list Cl) : option (St * bool) :=
  match cs with
  | [] => Some (s, true)
  | c :: r =>
      match exec n s (Call true c (fun ok => if ok then Return else Raise)) with
      | None => None
      | Some (s', _, true) => replay n s' r
      | Some (s', _, false) => Some (s', false)
      end
  end.
End Run.
End Nested.
Arguments body : clear implicits.
