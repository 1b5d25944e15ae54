(** The code shown in the documentation.  Models mkdocs.__exit__, gsp/io/mkdocs.py:27-49:
    reading back the source of the block that has just been executed.

    Simplifications: whitespace is space, tab and newline; the file does not change;
    [fuel] bounds the loop, which has no bound in the code. *)
From Verif Require Import Base.
Local Open Scope string_scope.
Local Open Scope nat_scope.

(** The newline character, gsp/io/mkdocs.py:43. *)
Definition nl : ascii := ascii_of_nat 10.
(** A line made of it only, gsp/io/mkdocs.py:43. *)
Definition newline : string := String nl "".
(** What lstrip and strip remove, gsp/io/mkdocs.py:38 and 41. *)
Definition is_space (c : ascii) : bool := Ascii.eqb c " " || Ascii.eqb c (ascii_of_nat 9) || Ascii.eqb c nl.
(** [linecache.getline]: the empty string when there is no such line (lines from 1).
    gsp/io/mkdocs.py:37. *)
Definition getline (file : list string) (n : nat) : string := match n with 0 => "" | S k => nth k file "" end.
(** [len(next_line) - len(next_line.lstrip())] gsp/io/mkdocs.py:38. *)
Fixpoint indent_of (s : string) : nat := match s with String c r => if is_space c then S (indent_of r) else 0 | EmptyString => 0 end.
(** [len(next_line.strip()) > 0] gsp/io/mkdocs.py:41. *)
Fixpoint has_text (s : string) : bool := match s with String c r => negb (is_space c) || has_text r | EmptyString => false end.
(** [next_line[indent:]] gsp/io/mkdocs.py:46. *)
Fixpoint drop (n : nat) (s : string) : string := match n, s with S k, String _ r => drop k r | _, _ => s end.
(** Lines 37-49. *)
Fixpoint read (fuel : nat) (file : list string) (line i indent : nat) : option (list string) :=
  match fuel with
  | 0 => None
  | S fuel =>
      let next := getline file (line + i) in
      let ind := indent_of next in
      let '(indent', stop) :=
        if Nat.eqb indent 0 then (ind, false)
        else (indent, ((Nat.ltb ind indent && has_text next) || String.eqb next "")%bool) in
      if stop then Some []
      else match read fuel file line (S i) indent' with
           | Some r => Some ((if String.eqb next newline then next else drop indent' next) :: r)
           | None => None
           end
  end.
(** Lines 30-50: the block starts after [line]. *)
Definition code (fuel : nat) (file : list string) (line : nat) : option (list string) := read fuel file line 1 0.
