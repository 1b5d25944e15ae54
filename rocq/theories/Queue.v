(** Command queues, the recording switch, decorated calls and run.
    Models gsp/io/command.py:24-178 and the recording part of 202-303. *)
From Verif Require Import Base Registry Convert Command.
Open Scope string_scope.

(** A CommandQueue object, gsp/io/command.py:72-95. *)
Record qdata := mkQ { q_name : string; q_ro : bool; q_cmds : list command }.

(** Session state.
    - [qs]: every queue object created so far; a queue is its position;
    - [inst]: [NamedSingleton._instances] (gsp/io/command.py:60);
    - [active]: [CommandQueue.active] (line 81);
    - [rec]: [__record__] (line 24);
    - [cids]: number of command ids drawn from [CID.counter] (line 314). *)
Definition qid := nat.
(** The variables above, gsp/io/command.py:24, 60, 72-95 and 314. *)
Record sys := mkSys {
  qs : list qdata; inst : dict string qid; active : option qid; rec : bool; cids : Z }.

(** Process start (no queue is created at import). gsp/io/command.py:24, 60, 81 and 314. *)
Definition sinit : sys := mkSys [] [] None true 0.

(** [CommandQueue.__init__], gsp/io/command.py:92-95. *)
Definition new_queue (s : sys) (name : string) : sys * qid :=
  let q := length (qs s) in
  (mkSys (qs s ++ [mkQ name false []])%list (inst s) (Some q) (rec s) (cids s), q).

(** [CommandQueue(name)] through the metaclass, gsp/io/command.py:62-69, also
    [queue(name)] (43-50).  [None] is Python's None. *)
Definition get_queue (s : sys) (name : option string) : sys * qid :=
  let the_active :=
    match active s with
    | Some q => (s, q)
    | None => new_queue s "default"
    end in
  match name with
  | None => the_active
  | Some n =>
      if String.eqb n "active" then the_active
      else match dget (inst s) n with
           | Some q => (s, q)
           | None => let '(s1, q) := new_queue s n in
                     (mkSys (qs s1) (dset (inst s1) n q) (active s1) (rec s1) (cids s1), q)
           end
  end.

(** The queue objects are changed, nothing else of gsp/io/command.py:24-95. *)
Definition set_qs (s : sys) (l : list qdata) : sys := mkSys l (inst s) (active s) (rec s) (cids s).
(** Update of one queue object. self.commands and self.readonly, gsp/io/command.py:92-94. *)
Definition on_queue (s : sys) (q : qid) (f : qdata -> qdata) : sys :=
  match nth_error (qs s) q with
  | Some x => set_qs s (upd (qs s) q (f x))
  | None => s
  end.

(** [empty], gsp/io/command.py:113-117. *)
Definition empty (s : sys) (q : qid) : sys := on_queue s q (fun x => mkQ (q_name x) (q_ro x) []).
(** Assignment to [queue.readonly]. gsp/io/command.py:79, 94 and 151-154. *)
Definition set_ro (s : sys) (q : qid) (b : bool) : sys := on_queue s q (fun x => mkQ (q_name x) b (q_cmds x)).
(** [record(state)], gsp/io/command.py:27-41. *)
Definition set_rec (s : sys) (b : bool) : sys := mkSys (qs s) (inst s) (active s) b (cids s).
(** [push], gsp/io/command.py:175-178. *)
Definition push (s : sys) (q : qid) (c : command) : sys * bool :=
  match nth_error (qs s) q with
  | Some x => if q_ro x then (s, false)
              else (set_qs s (upd (qs s) q (mkQ (q_name x) false (q_cmds x ++ [c])%list)), true)
  | None => (s, false)
  end.
(** [Command(...)], gsp/io/command.py:331-370 with CID.__new__ (316-325): an
    id is drawn even if the construction then fails. *)
Definition new_command (s : sys) (oidf : ref -> Z) (cn mn : string) (p : dict string value)
  : sys * res command :=
  let cid := (1 + cids s)%Z in
  (mkSys (qs s) (inst s) (active s) (rec s) cid, mk_command oidf cid cn mn p).

(** One call of a decorated method.
    - [k_env], [k_conv]: class facts and converter registry at that time;
    - [k_oidf]: ids of the objects at that time;
    - [k_id], [k_class]: [self.id], [self.__class__.__name__];
    - [k_method]: recorded method name (line 298);
    - [k_sig], [k_args], [k_kwargs]: signature and arguments;
    - [k_nocmd]: "__no_command__" was among the keyword arguments (205-208);
    - [k_body]: what the undecorated method returns or raises. *)
Record call := mkK {
  k_env : cenv; k_conv : registry; k_oidf : ref -> Z;
  k_id : Z; k_class : string; k_method : string;
  k_sig : sig; k_args : list value; k_kwargs : dict string value;
  k_nocmd : bool; k_body : res value }.

(** The undecorated method: argument binding, then the body (line 210). *)
Definition undecorated (k : call) : res value :=
  let* _ := bind_args (k_sig k) (k_args k) (k_kwargs k) in k_body k.

(** Parameters of the command (216-294). *)
Definition call_params (k : call) : res (dict string value) :=
  recorded_parameters (k_env k) (k_conv k) (k_id k) (k_sig k) (k_args k) (k_kwargs k).

(** queue.readonly, gsp/io/command.py:79 and 94. *)
Definition readonly (s : sys) (q : qid) : bool :=
  match nth_error (qs s) q with Some x => q_ro x | None => false end.

(** [inner], gsp/io/command.py:202-303.  Decorated calls made by the body
    complete, and are recorded, before this one: in a history they come
    first. *)
Definition complete (s : sys) (k : call) : sys * res value :=
  match undecorated k with
  | Err e => (s, Err e)
  | Ok r =>
      if negb (rec s) then (s, Ok r)
      else
        let '(s1, q) := get_queue s None in
        match call_params k with
        | Err e => (s1, Err e)
        | Ok p =>
            if negb (k_nocmd k) && negb (readonly s1 q) then
              let '(s2, c) := new_command s1 (k_oidf k) (k_class k) (k_method k) p in
              match c with
              | Err e => (s2, Err e)
              | Ok c => (fst (push s2 q c), Ok r)
              end
            else (s1, Ok r)
        end
  end.

(** Calls of decorated methods one after the other, gsp/io/command.py:202-303. *)
Definition run_calls (s : sys) (l : list call) : sys := fold_left (fun s k => fst (complete s k)) l s.

(** ** Running a queue *)

(** [beh c w]: what executing command [c] does in the backend world [w]: the
    new world, the decorated calls it makes on the way, and whether it raises.
    Simplification: backend code does not manipulate queues in any other
    way. *)
Section Run.
  Context {W : Type} (beh : command -> W -> W * list call * res unit).

  (** The loop of gsp/io/command.py:152-153. *)
  Fixpoint run_loop (s : sys) (w : W) (cmds : list command) : sys * W * res unit :=
    match cmds with
    | [] => (s, w, Ok tt)
    | c :: r =>
        let '(w1, calls, o) := beh c w in
        let s1 := run_calls s calls in
        match o with
        | Err e => (s1, w1, Err e)
        | Ok _ => run_loop s1 w1 r
        end
    end.

  (** [run], gsp/io/command.py:132-154: the flag is restored only when no
      command raises. *)
  Definition run_queue (s : sys) (w : W) (q : qid) : sys * W * res unit :=
    match nth_error (qs s) q with
    | None => (s, w, Ok tt)
    | Some x =>
        let '(s1, w1, o) := run_loop (set_ro s q true) w (q_cmds x) in
        match o with
        | Ok _ => (set_ro s1 q (q_ro x), w1, Ok tt)
        | Err e => (s1, w1, Err e)
        end
    end.
End Run.

(** ** Histories
    What a program does to queues: gsp/io/command.py:27-50, 113-117, 175-178, 202-303. *)
Inductive event :=
| EGet (name : option string)      (* queue(name) / CommandQueue(name) *)
| EEmpty (q : qid)
| ERo (q : qid) (b : bool)
| ERec (b : bool)
| EPush (q : qid) (oidf : ref -> Z) (cn mn : string) (p : dict string value)
                                   (* q.push(Command(cn, mn, p)) *)
| ECall (k : call).

(** One event, by the definitions above (gsp/io/command.py:27-178). *)
Definition step (s : sys) (e : event) : sys :=
  match e with
  | EGet n => fst (get_queue s n)
  | EEmpty q => empty s q
  | ERo q b => set_ro s q b
  | ERec b => set_rec s b
  | EPush q oidf cn mn p =>
      let '(s1, c) := new_command s oidf cn mn p in
      match c with Ok c => fst (push s1 q c) | Err _ => s1 end
  | ECall k => fst (complete s k)
  end.
(** A session since the process started, gsp/io/command.py:24-95. *)
Definition history (h : list event) : sys := fold_left step h sinit.

(** [queue.commands] gsp/io/command.py:80 and 92. *)
Definition commands (s : sys) (q : qid) : list command :=
  match nth_error (qs s) q with Some x => q_cmds x | None => [] end.
