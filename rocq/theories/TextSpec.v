(** Vocabulary for the properties of commands as text. *)
From Verif Require Import Base Registry Convert Command Execute Text.
Open Scope string_scope.

(** What a terminal shows: escape sequences of the form ESC [ x m removed. *)
Fixpoint plain (s : string) : string :=
  match s with
  | String a r =>
      match r with
      | String b (String _ (String d t)) =>
          if (Ascii.eqb a esc && Ascii.eqb b "[" && Ascii.eqb d "m")%bool then plain t else String a (plain r)
      | _ => String a (plain r)
      end
  | EmptyString => ""
  end.
Definition lines (s : string) : list string := split_on nl s.
(** Text on one line, without escapes. *)
Definition one_line (s : string) : Prop := contains nl s = false /\ contains esc s = false.

(** Capital letters. *)
Definition capital (c : ascii) : ascii :=
  match List.find (fun p => Ascii.eqb (fst p) c)
          (combine (list_ascii_of_string "abcdefghijklmnopqrstuvwxyz") (list_ascii_of_string "ABCDEFGHIJKLMNOPQRSTUVWXYZ")) with
  | Some p => snd p
  | None => c
  end.
Fixpoint capitals (s : string) : string :=
  match s with EmptyString => "" | String c r => String (capital c) (capitals r) end.

Section Shown.
Variable show : value -> string.
Variable showz : Z -> string.
Variable names : ref -> Z.
Variable ap : func -> value -> res value.
(** What is to be read of a value: a converted object by its id. *)
Definition value_text (v : value) (s : string) : Prop :=
  match v with
  | VConv f w => exists x, ap f w = Ok x /\ s = match x with VObj _ r => showz (names r) | _ => show x ++ " (converted)" end
  | _ => s = show v
  end.
(** The name and the type of a parameter: objects are parameters p(id), shown as P_ID
    with the type of p. *)
Definition label (k n : string) : Prop := (exists k', strip_id k = Some k' /\ n = k' ++ "_ID") \/ (strip_id k = None /\ n = k).
Definition base_key (k : string) : string := match strip_id k with Some k' => k' | None => k end.
(** The line of a parameter. *)
Definition param_line (d : dict string ann) (kv : string * value) (s : string) : Prop :=
  exists v, value_text (snd kv) v /\
  ((fst kv = "id" /\ s = "     - OBJECT_ID: " ++ v ++ " (int)") \/
   (fst kv <> "id" /\ exists n t, label (fst kv) n /\ dget d (base_key (fst kv)) = Some t /\
    s = "     - " ++ capitals n ++ ": " ++ v ++ " (" ++ ansi_type t ++ ")")).
End Shown.
