(** Vocabulary for saving and loading by file name. *)
From Verif Require Import Base Registry Convert Command CommandSpec Queue QueueSpec Base64 Execute Json Session SessionSpec JsonText JsonTextSpec JsonFile JsonFileSpec AnyFile AnyFileSpec SessionFile.
Open Scope string_scope.

(** A path whose last component is [c]: nothing but slashes and dots may follow it. *)
Inductive trailing : string -> Prop :=
| trailing_none : trailing ""
| trailing_slash r : trailing r -> trailing ("/" ++ r)
| trailing_dot r : trailing r -> trailing ("/." ++ r).
Definition names_file (p c : string) : Prop :=
  c <> "" /\ c <> "." /\ contains "/" c = false /\
  exists pre post, p = pre ++ c ++ post /\ (pre = "" \/ exists d, pre = d ++ "/") /\ trailing post.
(** [c] ends in a dot and [f], with something before the dot. *)
Definition with_suffix (c f : string) : Prop := exists stem, stem <> "" /\ c = stem ++ "." ++ f /\ contains "." f = false.

(** A session file: the format was given, or the name says so. *)
Definition json_file (format : option string) (name : string) : Prop :=
  format = Some "json" \/ (format = None \/ format = Some "") /\ exists c, names_file name c /\ with_suffix c "json".

(** The disk after the program was stopped while it wrote the file: some beginning of what
    it would have written. *)
Definition beginning (p x : text) : Prop := exists r, x = (p ++ r)%list.
Definition stopped (fs : files) (name : string) (p : text) : files := dset fs name p.
