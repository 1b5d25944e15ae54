(** Specification of what saving and loading keeps of a program's own classes. *)
From Verif Require Import Base Registry Convert Command CommandSpec Execute Session Derived.
Open Scope string_scope.

(** ** What a call delivers *)
(** The value recorded for an argument (C12), and the value it becomes when the
    command is run: a delayed conversion is carried out. *)
Definition recorded_value (E : cenv) (d : registry) (ann : dict string (list string)) (k : string) (v : value) : res value :=
  match dget ann k with Some anns => check_types E d anns v (false, v) | None => Ok v end.
Definition applied (ap : func -> value -> res value) (v : value) : res value :=
  match v with VConv f u => ap f u | _ => Ok v end.
Fixpoint delivered (E : cenv) (d : registry) (ap : func -> value -> res value) (ann : dict string (list string))
  (b : dict string value) : res (dict string value) :=
  match b with
  | [] => Ok []
  | (k, v) :: r => let* w := recorded_value E d ann k v in
                   let* x := applied ap w in
                   let* r' := delivered E d ap ann r in Ok ((k, x) :: r')
  end.

(** The same program with the arguments of every recorded call replaced by what is
    delivered for them. *)
Section Converted.
Context (E : cenv) (d : registry) (ap : func -> value -> res value).
Definition delivered_call (sg : sig) (args : list value) (kw : dict string value) : res (dict string value) :=
  let* b := bind_args sg args kw in delivered E d ap (annotations (s_params sg)) b.
Definition convert_step (p : proc) (s : step) : res step :=
  match s with
  | New k args kw => let* h := handed k args kw in
                     let* kw' := delivered_call (k_sig k) (fst (fst h)) (snd (fst h)) in Ok (New k [] kw')
  | Do i m args kw =>
      match nth_error (p_objs p) i with
      | None => Err KeyError
      | Some (k, _) => match dget (k_meths k) m with
                       | None => Err AttributeError
                       | Some md => let* kw' := delivered_call (m_sig md) args kw in Ok (Do i m [] kw')
                       end
      end
  end.
Fixpoint do_converted (p : proc) (l : list step) : res proc :=
  match l with
  | [] => Ok p
  | s :: r => let* s' := convert_step p s in let* q := do_step E d p s' in do_converted q r
  end.

(** Every argument is recorded as it is. *)
Definition as_given (sg : sig) (args : list value) (kw : dict string value) : Prop :=
  forall b n v, bind_args sg args kw = Ok b -> In (n, v) b -> recorded_value E d (annotations (s_params sg)) n v = Ok v.
Definition keeps (p : proc) (s : step) : Prop :=
  match s with
  | New k args kw => forall h, handed k args kw = Ok h -> as_given (k_sig k) (fst (fst h)) (snd (fst h))
  | Do i m args kw => forall k a md, nth_error (p_objs p) i = Some (k, a) -> dget (k_meths k) m = Some md -> as_given (m_sig md) args kw
  end.
Fixpoint all_kept (p : proc) (l : list step) : Prop :=
  match l with
  | [] => True
  | s :: r => keeps p s /\ match do_step E d p s with Ok q => all_kept q r | Err _ => True end
  end.
End Converted.

(** ** Classes and programs covered *)
(** Parameters with plain defaults. *)
Definition plain_sig (sg : sig) : Prop := valid_sig sg /\ forall n v, default_of sg n = Some v -> plain v = true.
(** A constructor that takes the parameters of the recorded one and gives them on. *)
Definition passes_on (k : class) (o : own) : Prop :=
  plain_sig (o_sig o) /\ p_names (o_sig o) = p_names (k_sig k) /\
  forall b, dkeys b = p_names (k_sig k) -> o_hand o b = Ok b.
(** The class is found under the name it is recorded with. *)
Definition replay_name (k : class) : string := match k_path k with Some s => s | None => k_name k end.
Definition fine_class (B : dict string class) (k : class) : Prop :=
  plain_sig (k_sig k) /\ dget B (replay_name k) = Some k /\
  (forall s, k_path k = Some s -> contains "." s = true) /\
  (forall o, k_own k = Some o -> passes_on k o) /\
  (forall m md, dget (k_meths k) m = Some md -> plain_sig (m_sig md) /\ m <> "__init__" /\ contains "." m = false).
Definition plain_call (args : list value) (kw : dict string value) : Prop :=
  NoDup (dkeys kw) /\ (forall v, In v args -> plain v = true) /\ (forall n v, In (n, v) kw -> plain v = true).
Definition fine_step (B : dict string class) (s : step) : Prop :=
  match s with
  | New k args kw => fine_class B k /\ plain_call args kw
  | Do _ _ args kw => plain_call args kw
  end.

(** ** Results *)
(** A process able to play a file back. *)
Definition able (s : proc) : Prop :=
  recording (p_reg s) = true /\ (0 <= counter (p_reg s))%Z /\ length (p_objs s) = length (heap (p_reg s)).
(** Each object of [c] is found in [s] under the identifier it has in [c], with the
    class and the attributes [objs] lists for it. *)
Definition rebuilt_as (c : proc) (objs : list (class * attrs)) (s : proc) : Prop :=
  length objs = length (p_objs c) /\
  forall i, (i < length (p_objs c))%nat -> exists z j,
    id_of (p_reg c) i = Some z /\ lookup (p_reg s) z = Some j /\ id_of (p_reg s) j = Some z /\
    nth_error (p_objs s) j = nth_error objs i.
(** Nothing that was there is touched, and nothing is recorded. *)
Definition untouched (s s' : proc) : Prop :=
  firstn (length (p_objs s)) (p_objs s') = p_objs s /\ p_log s' = p_log s /\ p_on s' = false.

(** ** Data of the examples *)
Definition attr_of (b : dict string value) (n m : string) : attrs :=
  match dget b n with Some v => [(m, v)] | None => [] end.
(** examples/io_saveload.py:32-46: Foo(value : int) with update(), and the converter
    from float to int. *)
Definition value_sig : sig := mkS [mkP "value" None (Some ["int"])] [].
Definition plus_one (a : attrs) : res attrs :=
  match dget a "value" with
  | Some (VInt z) => Ok (dset a "value" (VInt (z + 1)))
  | Some (VFloat z) => Ok (dset a "value" (VFloat (z + 1)))
  | _ => Err TypeError
  end.
Definition update : mdef := mkM (mkS [] []) (fun a _ => plus_one a).
Definition Foo : class :=
  mkClass "Foo" None value_sig (fun b => Ok (attr_of b "value" "value")) None [("update", update)].
Definition conversions : registry := [(("float", "int"), 0%nat)].
Definition float_to_int (f : func) (v : value) : res value := match v with VFloat z => Ok (VInt z) | _ => Err ValueError end.
(** examples/io_inheritance.py:36-42: Bar(value : float), derived from Foo; with update() here. *)
Definition Bar : class :=
  mkClass "Bar" None value_sig (fun b => Ok (attr_of b "value" "value"))
    (Some (mkOwn (mkS [mkP "value" None (Some ["float"])] []) (fun b => Ok b) (fun _ a => a))) [("update", update)].
(** A constructor that doubles what it is given. *)
Definition twice (v : value) : value := match v with VInt z => VInt (z + z) | _ => v end.
Definition Twice : class :=
  mkClass "Twice" None value_sig (fun b => Ok (attr_of b "value" "value"))
    (Some (mkOwn value_sig (fun b => Ok (map (fun kv => (fst kv, twice (snd kv))) b)) (fun _ a => a))) [].
(** A constructor with another parameter name, and a class derived from a library class
    without a constructor of its own. *)
Definition size_sig : sig := mkS [mkP "size" None (Some ["int"])] [].
Definition Renamed : class :=
  mkClass "Renamed" None value_sig (fun b => Ok (attr_of b "value" "value"))
    (Some (mkOwn size_sig (fun b => Ok (map (fun kv => ("value", snd kv)) b)) (fun _ a => a))) [].
Definition Base_ : class := mkClass "Base" (Some "core.Base") value_sig (fun b => Ok (attr_of b "value" "value")) None [].
Definition Mine : class := mkClass "Mine" (Some "core.Base") value_sig (fun b => Ok (attr_of b "value" "value")) None [].
(** Python's own classes. *)
Definition E1 : cenv := mkE (fun c => [c; "object"]) (fun _ => "object") (fun _ => ["object"]).
(** examples/io_saveload.py:57-58, and a program with both classes. *)
Definition foo_program : list step := [New Foo [VFloat 123] []; Do 0 "update" [] []].
Definition bar_program : list step := [New Bar [VInt 1] []; New Foo [] [("value", VInt 2)]; Do 0 "update" [] []; Do 1 "update" [] []; Do 0 "update" [] []].
(** A process that has made five objects. *)
Definition busy : proc := mkProc (create_n 5 rinit) (repeat (Foo, []) 5) [] true.
