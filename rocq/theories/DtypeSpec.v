(** Vocabulary for the property of data-type descriptions. *)
From Verif Require Import Base Dtype.
Local Open Scope string_scope.

(** Text without the separators. *)
Definition clean (s : string) : Prop := ~ In ","%char (list_ascii_of_string s) /\ ~ In ":"%char (list_ascii_of_string s).

(** A scalar, or a vector of at least two items. *)
Definition plain_shape (s : list nat) : Prop := s = [] \/ exists n, (2 <= n)%nat /\ s = [n].
(** What is left of a shape: the number of items. *)
Definition flat_shape (s : list nat) : list nat := if (1 <? count s)%nat then [count s] else [].

(** Fields laid out one after the other from [off] to [total], without gaps. *)
Fixpoint packed (sz : sizes) (off : nat) (fields : list (string * dtype * nat)) (total : nat) : Prop :=
  match fields with
  | [] => total = off
  | (name, (e, shape), o) :: r =>
      o = off /\ match e with
                 | EType t => exists k, sz t = Some k /\ packed sz (off + k * count shape) r total
                 | EStruct _ _ => False
                 end
  end.

Definition field_name (f : string * dtype * nat) : string := fst (fst f).
Definition field_shape (f : string * dtype * nat) : list nat := snd (snd (fst f)).
Definition field_elem (f : string * dtype * nat) : elem := fst (snd (fst f)).
(** A field the description can express: a known type, a non-empty name
    without separators. *)
Definition simple_field (sz : sizes) (f : string * dtype * nat) : Prop :=
  field_name f <> "" /\ clean (field_name f) /\
  exists t, field_elem f = EType t /\ clean t /\ sz t <> None.

(** The dtypes the description can express. *)
Definition describable (sz : sizes) (d : dtype) : Prop :=
  match d with
  | (EType t, shape) => clean t /\ sz t <> None /\ plain_shape shape
  | (EStruct total fields, shape) =>
      shape = [] /\ fields <> [] /\ NoDup (map field_name fields) /\
      Forall (fun f => simple_field sz f /\ plain_shape (field_shape f)) fields /\ packed sz 0 fields total
  end.
(** A to z, A to Z. *)
Definition letter (c : ascii) : Prop := (65 <= nat_of_ascii c <= 90)%nat \/ (97 <= nat_of_ascii c <= 122)%nat.
