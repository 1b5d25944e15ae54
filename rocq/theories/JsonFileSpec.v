(** Words and example data for the properties of session files on disk. *)
From Verif Require Import Base Registry Convert Command Queue Base64 Execute Json JsonText JsonTextSpec JsonFile.
Open Scope string_scope.

(** [ftok] gives every float its text and [fval] reads it back: repr() and float(). *)
Definition float_texts (ftok : Z -> text) (fval : text -> Z) (stamp : nat -> text) : Prop :=
  (forall z, float_token (ftok z) /\ fval (ftok z) = z) /\ forall i, float_token (stamp i).

(** How a session file is laid out: a dictionary with the version of the format and the
    list of the commands, each a dictionary of four keys. *)
Inductive value_layout (ftok : Z -> text) : jval -> jt -> Prop :=
| y_null : value_layout ftok JNull TNull
| y_int z : value_layout ftok (JInt z) (TInt z)
| y_float z : value_layout ftok (JFloat z) (TFloat (ftok z))
| y_str s : value_layout ftok (JStr s) (TStr (of_string s))
| y_list l l' : Forall2 (value_layout ftok) l l' -> value_layout ftok (JList l) (TList l').
Definition command_layout (ftok : Z -> text) (time : text) (e : entry) (x : jt) : Prop :=
  exists ps, x = TDict [(of_string "method", TStr (of_string (e_method e))); (of_string "id", TInt (e_id e));
                        (of_string "timestamp", TFloat time); (of_string "parameters", TDict ps)] /\
  Forall2 (fun kv kx => fst kx = of_string (fst kv) /\ value_layout ftok (snd kv) (snd kx)) (e_params e) ps.
Definition session_layout (ftok : Z -> text) (stamp : nat -> text) (es : list entry) (x : jt) : Prop :=
  exists cs, x = TDict [(of_string "gsp_version", TStr (of_string "1.0")); (of_string "commands", TList cs)] /\
  length cs = length es /\
  forall i e c, nth_error es i = Some e -> nth_error cs i = Some c -> command_layout ftok (stamp i) e c.

(** Floats that are whole numbers: 3 is 3.0. *)
Definition whole_tok (z : Z) : text := (write_int z ++ t ".0")%list.
Definition whole_val (k : text) : Z := match scan_atom (removelast (removelast k)) with Ok (TInt z, _) => z | _ => 0%Z end.
Definition noon (i : nat) : text := t "1700000000.0".

(** A session with a command that can be written, and one whose second command has a
    parameter json knows nothing of (a Measure, say). *)
Definition first_session : sys := history
  [EGet (Some "q"); EPush 0%nat Z.of_nat "Buffer" "core.Buffer" [("id", VOid 1%Z); ("count", VInt 12%Z); ("scale", VFloat 3%Z); ("data", VBytes [1; 2; 3]%N)]].
Definition second_session : sys := history
  [EGet (Some "q"); EPush 0%nat Z.of_nat "Canvas" "core.Canvas" [("id", VOid 1%Z)];
   EPush 0%nat Z.of_nat "Points" "visual.Points" [("id", VOid 2%Z); ("sizes", VSeq [VInt 1%Z; VAtom "Measure" 1%Z])]].
Definition no_conv : conv := fun _ v => ([], Ok v).

(** Every file can be opened; the disk after the first session was saved. *)
Definition yes (n : string) : bool := true.
Definition disk : files := fst (fst (save_file whole_tok noon (fun _ _ => None) no_conv Z.of_nat 5%nat yes [] first_session (Some 0%nat) "s.json")).
