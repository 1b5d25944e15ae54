(** Specification vocabulary for saved and loaded queues. *)
From Verif Require Import Base Registry Convert Command Queue Base64 Execute Json.
Open Scope string_scope.

(** The class and method a command means, as a loaded command states it: a
    dotted method name is a constructor path, an empty one is the constructor
    of the class. *)
Definition target_of (c : command) : string * string :=
  if String.eqb (c_method c) "" then (c_class c, "__init__")
  else if contains "." (c_method c) then (c_method c, "__init__")
  else (c_class c, c_method c).
Definition slash_free (c : command) : Prop :=
  contains "/" (c_class c) = false /\ contains "/" (c_method c) = false.

(** What one recorded parameter is written as: delayed conversions are
    performed ([pure f v] is what converter [f] returns on [v]); objects are
    written by id under the marked key. *)
Definition saved1 (pure : func -> value -> res value) (oidf : ref -> Z) (kv : string * value)
  : res (string * value) :=
  let* x := match snd kv with VConv f w => pure f w | v => Ok v end in
  Ok (match x with VObj _ o => (fst kv ++ "(id)", VInt (oidf o)) | x => (fst kv, x) end).

(** Values JSON represents exactly. *)
Inductive native : value -> Prop :=
| n_none : native VNone
| n_int z : native (VInt z)
| n_float z : native (VFloat z)
| n_str s : native (VStr s)
| n_seq l : (forall v, In v l -> native v) -> native (VSeq l).

(** [e] is the entry written for command [c]. *)
Definition written (txt : string -> Z -> option jval) (pure : func -> value -> res value) (oidf : ref -> Z)
  (c : command) (e : entry) : Prop :=
  e_method e = method_text c /\ e_id e = c_id c /\
  Forall2 (fun kv kj => exists x, saved1 pure oidf kv = Ok (fst kj, x) /\ encode txt oidf x = Ok (snd kj))
          (c_params c) (e_params e).

(** Loaded commands: the commands of the file, in order, with ids following
    [n]. *)
Fixpoint loaded_from (n : Z) (l : list entry) : list command :=
  match l with
  | [] => []
  | e :: r =>
      mkC (1 + n) (fst (split_method (e_method e))) (snd (split_method (e_method e)))
          (map (fun kv => (fst kv, decode (snd kv))) (e_params e)) :: loaded_from (1 + n) r
  end.

(** An entry naming the object its command concerns. *)
Definition has_id (e : entry) : Prop := dmem (e_params e) "id" = true.

(** All parameters of a command can be written, under distinct names. *)
Definition saveable (txt : string -> Z -> option jval) (pure : func -> value -> res value) (oidf : ref -> Z)
  (c : command) : Prop :=
  exists e, Forall2 (fun kv kj => exists x, saved1 pure oidf kv = Ok (fst kj, x) /\ encode txt oidf x = Ok (snd kj))
              (c_params c) e /\ NoDup (dkeys e).

(** Loaded command [c'] is saved command [c]: same target; same parameters in
    the same order, each the JSON form of the one recorded. *)
Definition same_command txt pure oidf (c c' : command) : Prop :=
  (c_class c', c_method c') = target_of c /\
  Forall2 (fun kv kv' => exists x j, saved1 pure oidf kv = Ok (fst kv', x) /\
             encode txt oidf x = Ok j /\ snd kv' = decode j) (c_params c) (c_params c').
