(** Vocabulary for the properties of the constructors. *)
From Verif Require Import Base Registry Convert Command Execute Protocol.
Open Scope string_scope.

(** The arguments of a recorded creation: each parameter of the constructor and
    nothing else. *)
Definition arguments_of (s : sig) (kw : dict string value) : Prop :=
  NoDup (dkeys kw) /\ forall n, In n (dkeys kw) <-> In n (p_names s).
(** Built as what it was: same class, same arguments. *)
Definition rebuilt (k : cls) (kw : dict string value) (o : outcome) : Prop :=
  exists r, o = Built r (k_path k) kw.
(** A creation, for the examples: two buffers exist. *)
Definition a_state := mkR 3 false [(1%Z, 0%nat); (2%Z, 1%nat)] [1; 2]%Z.
Definition segments_params : dict string value :=
  [("id", VOid 3); ("positions(id)", VOid 1); ("line_caps", VInt 1); ("line_colors(id)", VOid 2); ("line_widths", VInt 2)]%Z.
Definition segments_kw : dict string value :=
  [("positions", VObj "Buffer" 0%nat); ("line_caps", VInt 1); ("line_colors", VObj "Buffer" 1%nat); ("line_widths", VInt 2)]%Z.
