(** Commands as text.  Models gsp/io/ansi.py and gsp/io/text.py.

    Simplifications: [show] is str(), [date] the formatted time of the command,
    [names] the ids of objects; a converter returns a value and does nothing else
    (what conversions record meanwhile is in Json.v); key.upper() is on ASCII
    letters; every member of a union has a __name__. *)
From Verif Require Import Base Registry Convert Command Execute.
Open Scope string_scope.

(** The escape character of ansi.py:12-13. *)
Definition esc : ascii := ascii_of_nat 27.
(** The end of a line, ansi.py:35-40 and text.py:33-38. *)
Definition nl : ascii := ascii_of_nat 10.
(** The same as a text, ansi.py:35-40 and text.py:33-38. *)
Definition eol : string := String nl "".
(** ansi.py:12-13. *)
Definition bold_ansi (s : string) : string := String esc ("[1m" ++ s ++ String esc "[0m").
(** ansi.py:13. *)
Definition dim_ansi (s : string) : string := String esc ("[2m" ++ s ++ String esc "[0m").

(** An annotation: something with a __name__, a union of such, or anything else with
    its str(). ansi.py:56-67 and text.py:48-52. *)
Inductive ann := Named (n : string) | Union (repr : string) (members : list string) | Other (repr : string).

(** str.join, ansi.py:65. *)
Fixpoint join (sep : string) (l : list string) : string :=
  match l with [] => "" | [x] => x | x :: r => x ++ sep ++ join sep r end.
(** One letter of key.upper(), ansi.py:68 and text.py:53. *)
Definition upper_char (c : ascii) : ascii :=
  let n := nat_of_ascii c in if ((97 <=? n) && (n <=? 122))%nat then ascii_of_nat (n - 32) else c.
(** key.upper(), ansi.py:68 and text.py:53. *)
Fixpoint upper (s : string) : string :=
  match s with EmptyString => "" | String c r => String (upper_char c) (upper r) end.

Section Dump.
Variable show : value -> string.
Variable showz : Z -> string.
Variable names : ref -> Z.
Variable ap : func -> value -> res value.

(** ansi.py:28-34, text.py:26-32. *)
Definition method_text (c : command) : string :=
  if String.eqb (c_method c) "" then c_class c
  else if contains "." (c_method c) then c_method c
  else c_class c ++ "/" ++ c_method c.
(** [command.annotations[key]]: no annotations for a loaded command.
    ansi.py:56 and 59, text.py:48. *)
Definition annotation (a : option (dict string ann)) (key : string) : res ann :=
  match a with
  | None => Err TypeError
  | Some d => match dget d key with Some t => Ok t | None => Err KeyError end
  end.
(** ansi.py:35-40, text.py:33-38. *)
Definition header (bold dim : string -> string) (date : string) (c : command) : string :=
  dim (showz (c_id c) ++ ". ") ++ bold ("COMMAND" ++ eol) ++
  "     - METHOD: """ ++ method_text c ++ """" ++ dim (" (str)" ++ eol) ++
  "     - COMMAND_ID: " ++ showz (c_id c) ++ dim (" (int)" ++ eol) ++
  "     - TIMESTAMP: " ++ date ++ dim (" (datetime)" ++ eol) ++
  dim ("   PARAMETERS" ++ eol).
(** ansi.py:44-49. *)
Definition ansi_value (v : value) : res string :=
  match v with
  | VConv f w => let* x := ap f w in Ok (match x with VObj _ r => showz (names r) | _ => show x ++ " (converted)" end)
  | _ => Ok (show v)
  end.
(** ansi.py:61-67. *)
Definition ansi_type (t : ann) : string :=
  match t with Named n => n | Union _ l => join " | " l | Other s => s end.
(** ansi.py:41-69. *)
Definition ansi_param (a : option (dict string ann)) (kv : string * value) : res string :=
  let* v := ansi_value (snd kv) in
  if String.eqb (fst kv) "id" then Ok ("     - OBJECT_ID: " ++ v ++ dim_ansi (" (int)" ++ eol))
  else
    let* kt := match strip_id (fst kv) with
               | Some k => let* t := annotation a k in Ok (k ++ "_ID", t)
               | None => let* t := annotation a (fst kv) in Ok (fst kv, t)
               end in
    Ok ("     - " ++ upper (fst kt) ++ ": " ++ v ++ dim_ansi (" (" ++ ansi_type (snd kt) ++ ")" ++ eol)).
(** text.py:42-44. *)
Definition text_value (v : value) : res string :=
  match v with VConv f w => let* x := ap f w in Ok (show x ++ " (converted)") | _ => Ok (show v) end.
(** text.py:49-52. *)
Definition text_type (t : ann) : string := match t with Named n => n | Union s _ => s | Other s => s end.
(** text.py:39-54. *)
Definition text_param (a : option (dict string ann)) (kv : string * value) : res string :=
  let* v := text_value (snd kv) in
  if String.eqb (fst kv) "id" then Ok ("     - OBJECT_ID: " ++ v ++ " (int)" ++ eol)
  else let* t := annotation a (fst kv) in
       Ok ("     - " ++ upper (fst kv) ++ ": " ++ v ++ " (" ++ text_type t ++ ")" ++ eol).
(** The loop over the parameters, ansi.py:41-69 and text.py:39-54. *)
Fixpoint params (f : string * value -> res string) (l : dict string value) : res string :=
  match l with [] => Ok "" | kv :: r => let* s := f kv in let* t := params f r in Ok (s ++ t) end.
(** ansi.dump_command and text.dump_command with a stream other than standard
    output. ansi.py:15-74. *)
Definition dump_ansi (a : option (dict string ann)) (date : string) (c : command) : res string :=
  let* p := params (ansi_param a) (c_params c) in Ok (header bold_ansi dim_ansi date c ++ p).
(** text.dump_command, text.py:13-59. *)
Definition dump_text (a : option (dict string ann)) (date : string) (c : command) : res string :=
  let* p := params (text_param a) (c_params c) in Ok (header (fun s => s) (fun s => s) date c ++ p).

(** ansi.dump without a file, ansi.py:76-87: [queue or CommandQueue("active")]. *)
Fixpoint dump_all (l : list (command * string * option (dict string ann))) : res string :=
  match l with
  | [] => Ok ""
  | (c, d, a) :: r => let* s := dump_ansi a d c in let* t := dump_all r in Ok (s ++ eol ++ t)
  end.
(** ansi.dump, ansi.py:76-89. *)
Definition ansi_dump (given : option (list (command * string * option (dict string ann)))) (active : list (command * string * option (dict string ann))) : res string :=
  dump_all (match given with Some (x :: l) => x :: l | _ => active end).
End Dump.

(** text.dump, text.py:61-67: CommandQueue has no get_default, a queue no _commands. *)
Definition text_dump : res string := Err AttributeError.
(** ansi.load, text.load: [raise NotImplemented], ansi.py:97-100, text.py:82-85. *)
Definition text_load : res unit := Err TypeError.
