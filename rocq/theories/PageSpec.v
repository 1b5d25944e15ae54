(** Vocabulary for the pages of the documentation: how they are read. *)
From Verif Require Import Base Execute Docs Page.
Local Open Scope string_scope.

(** A line of a tab is indented by eight. *)
Definition content (l : string) : option string :=
  if String.prefix eight l then Some (String.substring 8 (String.length l - 8) l) else None.
(** The blocks of code of a page, by lines: a line of a tab starting with three backquotes
    opens one, a line of exactly three backquotes or a line that is less indented (unless
    it is empty) closes it. *)
Fixpoint blocks (opened : option (list string)) (l : list string) : list (list string) :=
  match l with
  | [] => match opened with Some b => [rev b] | None => [] end
  | x :: r =>
      match opened, content x with
      | None, Some y => if String.prefix "```" y then blocks (Some []) r else blocks None r
      | None, None => blocks None r
      | Some b, Some y => if String.eqb y "```" then rev b :: blocks None r else blocks (Some (y :: b)) r
      | Some b, None => if String.eqb x "" then blocks (Some ("" :: b)) r else rev b :: blocks None r
      end
  end.
Definition shown (p : string) : list (list string) := blocks None (split_on nl p).
(** A line that can stand in a block. *)
Definition writable (l : string) : Prop := Command.contains nl l = false /\ l <> "```".
(** A page with both dumps. *)
Definition example_text : string :=
  fst (page "Points" ["ansi"; "json"] ["x = 1" ++ newline; newline; "y = 2" ++ newline] (Ok "A") (Ok ("{" ++ newline ++ "}"))).
