(** Saving and loading by file name.  Models gsp.save and gsp.load,
    gsp/__init__.py:57-92, on the files of JsonFile.v and AnyFile.v, and what a program
    does with a loaded queue.

    Simplification: a file is known by the name given, so two names never mean the same
    file; names are POSIX paths. *)
From Verif Require Import Base Registry Convert Command Queue Base64 Execute Json Session JsonText JsonFile AnyFile.
Open Scope string_scope.

(** PurePosixPath.name: the last component, empty ones and dots left out.
    gsp/__init__.py:67 and 86. *)
Definition component (x : string) : bool := negb (String.eqb x "" || String.eqb x ".").
(** PurePosixPath.name, gsp/__init__.py:67 and 86. *)
Definition path_name (p : string) : string := last (filter component (split_on "/" p)) "".
(** PurePath.suffix without its dot: what follows the last dot, if something does and
    something precedes it. gsp/__init__.py:67 and 86. *)
Fixpoint last_dot (s : string) : option (string * string) :=
  match s with
  | EmptyString => None
  | String c r =>
      match last_dot r with
      | Some (a, b) => Some (String c a, b)
      | None => if Ascii.eqb c "." then Some ("", r) else None
      end
  end.
(** PurePath.suffix without its dot, gsp/__init__.py:67 and 86. *)
Definition suffix (p : string) : string :=
  match last_dot (path_name p) with
  | Some (a, b) => if String.eqb a "" then "" else b
  | None => ""
  end.
(** [format or pathlib.Path(filename).suffix[1:]], lines 67 and 86. *)
Definition format_of (format : option string) (name : string) : string :=
  match format with Some f => if String.eqb f "" then suffix name else f | None => suffix name end.

Section Files.
Variables (ftok : Z -> text) (fval : text -> Z) (stamp : nat -> text) (code : list (pystr * jt) -> Z).
(** gsp.save, lines 57-71. *)
Definition gsp_save (txt : string -> Z -> option jval) (ap : conv) (oidf : ref -> Z) (fuel : nat) (can_open : string -> bool)
  (fs : files) (s : sys) (format : option string) (name : string) : files * sys * res unit :=
  if String.eqb (format_of format name) "json" then save_file ftok stamp txt ap oidf fuel can_open fs s None name
  else (fs, s, Err ValueError).
(** gsp.load, lines 73-92. *)
Definition gsp_load_file (rs : rstate) (s : sys) (fs : files) (format : option string) (name : string) : rstate * sys * res qid :=
  let rs1 := mkR (counter rs) (recording rs) [] (heap rs) in
  let '(s1, q) := get_queue s None in
  let s2 := empty s1 q in
  if String.eqb (format_of format name) "json" then
    match dget fs name with
    | None => (rs1, s2, Err os_error)
    | Some x => let '(s3, o) := load_text fval code s2 None x in (rs1, s3, let* _ := o in Ok q)
    end
  else (rs1, s2, Err ValueError).
(** [queue = gsp.load(name); queue.run(backend)].
    gsp/__init__.py:73-92, gsp/io/command.py:132-154. *)
Definition play_file (B : backend) (ap : func -> value -> res value) (calls : command -> list call)
  (rs : rstate) (s : sys) (fs : files) (format : option string) (name : string) : sys * world * res unit :=
  let '(rs1, s1, o) := gsp_load_file rs s fs format name in
  let w := (rs1, (fun _ => ""), []) in
  match o with
  | Err e => (s1, w, Err e)
  | Ok q => run_queue (serve B ap calls) s1 w q
  end.
End Files.
