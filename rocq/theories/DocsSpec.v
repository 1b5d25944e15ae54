(** Vocabulary for the code shown in the documentation. *)
From Verif Require Import Base Docs.
Local Open Scope string_scope.
Local Open Scope nat_scope.

Fixpoint spaces (n : nat) : string := match n with 0 => "" | S k => String " " (spaces k) end.
(** A line as it stands in a block indented by [k]: empty lines are left empty. *)
Definition indented (k : nat) (l : string) : string := if String.eqb l newline then l else spaces k ++ l.
(** The line ends the block: text, less indented. *)
Definition ends (k : nat) (l : string) : Prop := has_text l = true /\ indent_of l < k.
(** A line of a program: an empty line, or text. *)
Definition line_ok (l : string) : Prop := l = newline \/ has_text l = true.
(** For the examples. *)
Definition ln (s : string) : string := s ++ newline.
