(** What a Wavefront file says. *)
From Verif Require Import Base Mesh.
Open Scope string_scope.

(** Lines of such a file.  The corners of a face give the number of a vertex and
    may give those of texture coordinates and of a normal. *)
Inductive item {F : Type} :=
| Vertex (x : list F)
| Texture (x : list F)
| Normal (x : list F)
| Face (l : list (Z * option Z * option Z))
| Nothing.
Arguments item : clear implicits.

(** What a line spells: words, none of them empty, with blanks around them and at
    least one between two of them. *)
Definition is_blank (c : ascii) : Prop := In (nat_of_ascii c) [9; 10; 11; 12; 13; 28; 29; 30; 31; 32]%nat.
Definition all_blank (s : string) : Prop := forall c, In c (list_ascii_of_string s) -> is_blank c.
Definition no_blank (s : string) : Prop := forall c, In c (list_ascii_of_string s) -> ~ is_blank c.
Inductive spelled : string -> list string -> Prop :=
| spelled_end b : all_blank b -> spelled b []
| spelled_word b w rest ws : all_blank b -> w <> "" -> no_blank w ->
    (forall c r, rest = String c r -> is_blank c) -> spelled rest ws -> spelled (b ++ w ++ rest) (w :: ws).

Section Says.
  Context {F : Type} (num : string -> res F) (int : string -> res Z).

  (** The words of a line. *)
  Definition holds_words (line : string) (l : list string) : Prop := prefix "#" line = false /\ words line = l.
  (** A corner: "7", "7/2", "7//4" or "7/2/4". *)
  Definition optional (p : option string) (x : option Z) : Prop :=
    match x with
    | Some z => exists w, p = Some w /\ int w = Ok z
    | None => forall w, p = Some w -> is_ok (int w) = false
    end.
  Definition corner_says (w : string) (c : Z * option Z * option Z) : Prop :=
    let '(v, t, n) := c in
    (exists p, nth_error (parts w) 0 = Some p /\ int p = Ok v) /\
    optional (nth_error (parts w) 1) t /\ optional (nth_error (parts w) 2) n.
  Definition number_says (w : string) (x : F) : Prop := num w = Ok x.

  Definition says (line : string) (i : item F) : Prop :=
    match i with
    | Vertex x => exists ws, holds_words line ("v" :: ws) /\ Forall2 number_says (firstn 3 ws) x
    | Texture x => exists ws, holds_words line ("vt" :: ws) /\ Forall2 number_says (firstn 2 ws) x
    | Normal x => exists ws, holds_words line ("vn" :: ws) /\ Forall2 number_says (firstn 3 ws) x
    | Face l => exists ws, holds_words line ("f" :: ws) /\ Forall2 corner_says ws l
    | Nothing => prefix "#" line = true \/ words line = [] \/
        exists w ws, words line = w :: ws /\ ~ In w ["v"; "vt"; "vn"; "f"]
    end.
End Says.

(** The vertices of a file and its faces, in order. *)
Definition vertices_of {F} (l : list (item F)) : list (list F) :=
  flat_map (fun i => match i with Vertex x => [x] | _ => [] end) l.
Definition textures_of {F} (l : list (item F)) : list (list F) :=
  flat_map (fun i => match i with Texture x => [x] | _ => [] end) l.
Definition normals_of {F} (l : list (item F)) : list (list F) :=
  flat_map (fun i => match i with Normal x => [x] | _ => [] end) l.
Definition faces_of {F} (l : list (item F)) : list (list (Z * option Z * option Z)) :=
  flat_map (fun i => match i with Face x => [x] | _ => [] end) l.
(** All the numbers, if none is missing. *)
Fixpoint complete (l : list (option Z)) : option (list Z) :=
  match l with
  | [] => Some []
  | Some z :: r => match complete r with Some zs => Some (z :: zs) | None => None end
  | None :: _ => None
  end.
Definition some_of {A} (o : option A) : list A := match o with Some x => [x] | None => [] end.
