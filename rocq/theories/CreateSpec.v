(** The documented results of the functions that make arrays. *)
From Verif Require Import Base Create.
Local Open Scope string_scope.

(** The names: a letter for the type, vec or mat, the size. *)
Definition letters : list (string * etype) := [("b", U8); ("i", I32); ("u", U32); ("h", F16); ("", F32); ("d", F64)].
Definition kinds : list (string * family) :=
  [("vec2", Vec 2); ("vec3", Vec 3); ("vec4", Vec 4); ("mat2", Mat 2); ("mat3", Mat 3); ("mat4", Mat 4)].
(** Counts as a shape: None is no axis at all. *)
Definition axes (c : count) : list Z := match c with CNone => [] | CInt n => [n] | CTuple l => l end.
(** What the docstrings say of one item and of the type: vec234.py:77-486,
    mat234.py.  "(count,1) shaped" for scalars. *)
Definition documented_item (name : string) (f : family) : list nat :=
  match f with Scalar => [1] | Vec n => [n] | Mat n => [n; n] end%nat.
Definition documented_type (name : string) (t : etype) : etype :=
  if String.eqb name "imat2" then I8 else if String.eqb name "umat2" then U8 else t.
