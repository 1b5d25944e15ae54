(** The command decorator: argument binding, parameter dictionary, type check.
    Models gsp/io/command.py:181-305 and 328-370. *)
From Verif Require Import Base Registry Convert.
Open Scope string_scope.

(** Python values that can be arguments of a decorated method.
    - [VAtom c n]: any other plain value of class [c] (dtype, enum, color, ...),
      told apart by [n];
    - [VObj c r]: a protocol object (an instance of gsp.object.Object) of class
      [c], reference [r];
    - [VOid z]: an OID (gsp/object.py:11);
    - [VConv f v]: a delayed conversion, Converter(f, v)
      (gsp/io/convert.py:9-27). *)
Inductive value :=
| VNone | VInt (z : Z) | VFloat (z : Z) | VStr (s : string) | VBytes (b : list N)
| VSeq (l : list value) | VAtom (c : string) (n : Z)
| VObj (c : string) (r : ref) | VOid (z : Z) | VConv (f : func) (v : value).

(** [value.__class__.__name__] gsp/io/command.py:254 and 297. *)
Definition class_of (v : value) : string :=
  match v with
  | VNone => "NoneType" | VInt _ => "int" | VFloat _ => "float" | VStr _ => "str"
  | VBytes _ => "bytes" | VSeq _ => "list" | VAtom c _ => c | VObj c _ => c
  | VOid _ => "OID" | VConv _ _ => "Converter"
  end.
(** [isinstance(value, Object)] gsp/io/command.py:230, 237, 244 and 367. *)
Definition is_object (v : value) : bool := match v with VObj _ _ => true | _ => false end.

(** Facts about classes the type check consults:
    - [mro c]: names of [inspect.getmro(c)], starting with [c] itself;
    - [base c]: name of [c.__base__];
    - [metabases c]: names of [c.__class__.__bases__] (bases of the metaclass;
      ["object"] for ordinary classes).
    Consulted at gsp/io/command.py:254-279 and gsp/io/convert.py. *)
Record cenv := mkE {
  mro : string -> list string;
  base : string -> string;
  metabases : string -> list string }.

(** A method signature without [self].  [locals]: names of the local variables
    that follow the parameters in [func.__code__.co_varnames].
    Simplification: no *args, **kwargs, positional-only or keyword-only
    parameters (no decorated method in /repo has any); annotations are a list
    of classes (a plain class is a one-element list, [A | B] the list of its
    members); unresolvable annotations (gsp_matplotlib/core/list.py) are not
    modelled. *)
Record param := mkP { p_name : string; p_default : option value; p_ann : option (list string) }.
(** gsp/io/command.py:216-221. *)
Record sig := mkS { s_params : list param; s_locals : list string }.
(** The parameter names, the first entries of co_varnames, gsp/io/command.py:216. *)
Definition p_names (s : sig) : list string := map p_name (s_params s).

(** Python's own binding of arguments to parameters when
    [func(self, *args, **kwargs)] is evaluated (gsp/io/command.py:210). *)
Fixpoint bind_params (ps : list param) (args : list value) (kwargs : dict string value)
  : res (dict string value) :=
  match ps with
  | [] => match args with [] => Ok [] | _ => Err TypeError end
  | p :: ps' =>
      match args with
      | a :: args' =>
          if dmem kwargs (p_name p) then Err TypeError
          else let* r := bind_params ps' args' kwargs in Ok ((p_name p, a) :: r)
      | [] =>
          match dget kwargs (p_name p) with
          | Some v => let* r := bind_params ps' [] kwargs in Ok ((p_name p, v) :: r)
          | None =>
              match p_default p with
              | Some d => let* r := bind_params ps' [] kwargs in Ok ((p_name p, d) :: r)
              | None => Err TypeError
              end
          end
      end
  end.
(** As above, with the check that every keyword is a parameter's name (gsp/io/command.py:210). *)
Definition bind_args (s : sig) (args : list value) (kwargs : dict string value)
  : res (dict string value) :=
  if forallb (fun k => existsb (String.eqb k) (p_names s)) (dkeys kwargs)
  then bind_params (s_params s) args kwargs
  else Err TypeError.

(** [get_default_args], gsp/io/command.py:181-188. *)
Fixpoint get_default_args (ps : list param) : dict string value :=
  match ps with
  | [] => []
  | p :: r => match p_default p with
              | Some d => (p_name p, d) :: get_default_args r
              | None => get_default_args r
              end
  end.

(** The key under which a value is stored: gsp/io/command.py:230-231,
    237-238, 244-245. *)
Definition key_of (k : string) (v : value) : string :=
  if is_object v then k ++ "(id)" else k.

(** Parameter dictionary, gsp/io/command.py:224-246.  [id] is [self.id]. *)
Definition add_positional (p : dict string value) (kv : string * value) : dict string value :=
  dset p (key_of (fst kv) (snd kv)) (snd kv).
(** gsp/io/command.py:235-246. *)
Definition add_missing (p : dict string value) (kv : string * value) : dict string value :=
  if dmem p (fst kv) then p else dset p (key_of (fst kv) (snd kv)) (snd kv).
(** gsp/io/command.py:215-246. *)
Definition build_parameters (id : Z) (s : sig) (args : list value) (kwargs : dict string value)
  : dict string value :=
  let keys := (p_names s ++ s_locals s)%list in
  let p0 := [("id", VOid id)] in
  let p1 := fold_left add_positional (combine keys args) p0 in
  let p2 := fold_left add_missing kwargs p1 in
  fold_left add_missing (get_default_args (s_params s)) p2.

(** Annotations of the method, [typing.get_type_hints(func)]. gsp/io/command.py:217-218. *)
Fixpoint annotations (ps : list param) : dict string (list string) :=
  match ps with
  | [] => []
  | p :: r => match p_ann p with
              | Some a => (p_name p, a) :: annotations r
              | None => annotations r
              end
  end.

(** ["[" in name], gsp/io/command.py:255. *)
Fixpoint contains (c : ascii) (s : string) : bool :=
  match s with
  | EmptyString => false
  | String c' r => Ascii.eqb c c' || contains c r
  end.

(** [parameter_type], gsp/io/command.py:254-256. *)
Definition parameter_type (E : cenv) (v : value) : string :=
  let c := class_of v in if contains "[" c then base E c else c.

(** The three-way test of gsp/io/command.py:267-269: equal, or
    [isinstance(parameter_type, annotated)] (a class is an instance of [type]
    and [object] only), or subclass. *)
Definition matches (E : cenv) (pt a : string) : bool :=
  String.eqb a pt
  || (String.eqb a "type" || String.eqb a "object")
  || existsb (String.eqb a) (mro E pt).

(** [get_converter(base_type, annotated_type)] for two types. Called at gsp/io/command.py:279. *)
Definition conv_for (E : cenv) (d : registry) (b a : string) : option func :=
  match get_converter d (mkV (Some b) None "type" (metabases E b)) (DType a) with
  | Ok o => o
  | Err _ => None
  end.

(** The inner loop, gsp/io/command.py:277-287: every base with a converter
    overwrites the previous choice. *)
Definition search_bases (E : cenv) (d : registry) (bases : list string) (a : string)
  (v : value) (st : bool * value) : bool * value :=
  fold_left (fun st b => match conv_for E d b a with
                         | Some f => (true, VConv f v)
                         | None => st end) bases st.

(** The loop over the annotated types, gsp/io/command.py:265-294. *)
Fixpoint check_types (E : cenv) (d : registry) (anns : list string) (v : value)
  (st : bool * value) : res value :=
  match anns with
  | [] => if fst st then Ok (snd st) else Err ValueError
  | a :: r =>
      let pt := parameter_type E v in
      if matches E pt a then Ok (snd st)
      else if String.eqb pt "NoneType" then Ok (snd st)
      else check_types E d r v (search_bases E d (mro E (class_of v)) a v st)
  end.

(** gsp/io/command.py:250-294 for the whole dictionary. *)
Fixpoint check_parameters (E : cenv) (d : registry) (ann : dict string (list string))
  (p : dict string value) : res (dict string value) :=
  match p with
  | [] => Ok []
  | (k, v) :: r =>
      let* v' := match dget ann k with
                 | Some anns => check_types E d anns v (false, v)
                 | None => Ok v
                 end in
      let* r' := check_parameters E d ann r in Ok ((k, v') :: r')
  end.

(** [Command.__init__], gsp/io/command.py:331-370: protocol objects are
    replaced by their ids.  [oidf r] is the id of object [r].
    Simplification: the timestamp and the annotations are not kept. *)
Record command := mkC { c_id : Z; c_class : string; c_method : string; c_params : dict string value }.
(** gsp/io/command.py:366-368. *)
Definition id_value (oidf : ref -> Z) (v : value) : value :=
  match v with VObj _ r => VOid (oidf r) | _ => v end.
(** gsp/io/command.py:358-370: without an id the command is refused. *)
Definition mk_command (oidf : ref -> Z) (cid : Z) (classname methodname : string)
  (p : dict string value) : res command :=
  if dmem p "id"
  then Ok (mkC cid classname methodname (map (fun kv => (fst kv, id_value oidf (snd kv))) p))
  else Err ValueError.

(** The parameters a call records, gsp/io/command.py:216-294. *)
Definition recorded_parameters (E : cenv) (d : registry) (id : Z) (s : sig)
  (args : list value) (kwargs : dict string value) : res (dict string value) :=
  check_parameters E d (annotations (s_params s)) (build_parameters id s args kwargs).

(** ** Resolving the parameters of a command (gsp/io/command.py:412-427) *)

(** [key.endswith("(id)")], with [key[:-4]]. gsp/io/command.py:419-420. *)
Fixpoint strip_id (k : string) : option string :=
  if String.eqb k "(id)" then Some ""
  else match k with
       | EmptyString => None
       | String c r => option_map (String c) (strip_id r)
       end.

(** The loop of gsp/io/command.py:418-426.  [objs] is [Object.objects];
    [apply f v] is what converter [f] returns on [v].  The value under a
    "(id)" key is an id: an OID when recorded in memory, a plain int after
    loading.  Other dictionary keys (unhashable or non-int values) raise.
    An OID value under an ordinary key is written back to the dictionary being
    iterated, not to the result: the argument is dropped (line 422).
    [cls r] is the class of object [r]. *)
Definition resolve1 (objs : dict Z ref) (cls : ref -> string) (apply : func -> value -> res value)
  (acc : dict string value) (kv : string * value) : res (dict string value) :=
  let '(k, v) := kv in
  match strip_id k with
  | Some k' =>
      match v with
      | VOid z | VInt z =>
          match dget objs z with
          | Some r => Ok (dset acc k' (VObj (cls r) r))
          | None => Err KeyError
          end
      | VSeq _ => Err TypeError
      | _ => Err KeyError
      end
  | None =>
      match v with
      | VOid z => match dget objs z with Some _ => Ok acc | None => Err KeyError end
      | VConv f w => let* x := apply f w in Ok (dset acc k x)
      | _ => Ok (dset acc k v)
      end
  end.
(** gsp/io/command.py:418-426, one parameter after the other. *)
Fixpoint resolve_loop objs cls apply (acc : dict string value) (p : dict string value)
  : res (dict string value) :=
  match p with
  | [] => Ok acc
  | kv :: r => let* acc' := resolve1 objs cls apply acc kv in resolve_loop objs cls apply acc' r
  end.
(** Lines 412-427: [id] removed first (it is always present, see
    [mk_command]). *)
Definition resolve objs cls apply (p : dict string value) : res (dict string value) :=
  resolve_loop objs cls apply [] (ddel p "id").
