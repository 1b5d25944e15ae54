(** Specification vocabulary for recorded commands. *)
From Verif Require Import Base Registry Convert Command.
Open Scope string_scope.

(** Well-formed signatures: distinct parameter names that are Python
    identifiers (so none ends with "(id)") other than "id"; default values are
    not protocol objects.  Every decorated method of /repo satisfies this. *)
Definition valid_name (k : string) : Prop := k <> "id" /\ strip_id k = None.
Definition valid_sig (s : sig) : Prop :=
  NoDup (p_names s) /\
  (forall p, In p (s_params s) -> valid_name (p_name p)) /\
  (forall p d, In p (s_params s) -> p_default p = Some d -> is_object d = false).

(** Values that are neither protocol objects, nor identifiers, nor delayed
    conversions. *)
Definition plain (v : value) : bool :=
  match v with VObj _ _ | VOid _ | VConv _ _ => false | _ => true end.

(** The default of parameter [k]. *)
Definition default_of (s : sig) (k : string) : option value := dget (get_default_args (s_params s)) k.

(** The value belongs to class [a]: [a] is its class (for generated vector
    classes such as vec[3], the class they derive from), a superclass of it, or
    one of the classes every class is an instance of. *)
Definition belongs (E : cenv) (v : value) (a : string) : Prop :=
  a = parameter_type E v \/ In a (mro E (parameter_type E v)) \/ a = "type" \/ a = "object".

(** When is a value acceptable for a list of annotated types: it is None, or
    belongs to one of them, or one of its classes has a registered converter
    to one of them. *)
Definition acceptable (E : cenv) (d : registry) (anns : list string) (v : value) : Prop :=
  (exists a, In a anns /\ belongs E v a) \/
  (parameter_type E v = "NoneType" /\ anns <> []) \/
  (exists a b f, In a anns /\ In b (mro E (class_of v)) /\ conv_for E d b a = Some f).

(** [a] is one of the annotated types, and the value belongs neither to it nor to
    those before it: a conversion to it was looked for. *)
Definition tried (E : cenv) (anns : option (list string)) (v : value) (a : string) : Prop :=
  exists l1 l2, anns = Some (l1 ++ a :: l2)%list /\ forall a', In a' (a :: l1) -> ~ belongs E v a'.

(** The value is recorded as it is: it is None, or none of its classes has a converter to
    a type that was tried. *)
Definition untouched (E : cenv) (d : registry) (anns : option (list string)) (v : value) : Prop :=
  parameter_type E v = "NoneType" \/
  forall a b, tried E anns v a -> In b (mro E (class_of v)) -> conv_for E d b a = None.

(** The value the type check looks at for parameter [k]: the argument bound to
    it, unless that is a protocol object, in which case only the default (if
    any) is looked at. *)
Definition checked_value (s : sig) (bound : dict string value) (k : string) : option value :=
  match dget bound k with
  | Some v => if is_object v then default_of s k else Some v
  | None => None
  end.
