(** Vocabulary for the properties of the creation of visuals. *)
From Verif Require Import Base Registry Convert Command Buffer Creation.
From Verif Require Visual.
Open Scope string_scope.

(** The arguments of each visual in the order of its documentation. *)
Definition documented (k : Visual.vkind) : list string :=
  match k with
  | Visual.Pixels => ["positions"; "colors"]
  | Visual.Points => ["positions"; "sizes"; "fill_colors"; "line_colors"; "line_widths"]
  | Visual.Markers => ["positions"; "types"; "sizes"; "axis"; "angles"; "fill_colors"; "line_colors"; "line_widths"]
  | Visual.Segments => ["positions"; "line_caps"; "line_colors"; "line_widths"]
  | Visual.Paths => ["positions"; "indices"; "line_colors"; "line_widths"; "line_styles"; "line_joins"; "line_caps"]
  | Visual.Polygons => ["positions"; "indices"; "fill_colors"; "line_colors"; "line_widths"; "line_styles"; "line_joins"]
  end.
(** The argument called [n]: given by its place, or by its name. *)
Fixpoint argument (ps : list string) (args : list value) (kw : dict string value) (n : string) : option value :=
  match ps, args with
  | [], _ => None
  | p :: ps', [] => if String.eqb n p then dget kw n else argument ps' [] kw n
  | p :: ps', a :: args' => if String.eqb n p then Some a else argument ps' args' kw n
  end.
(** A proper call: no more arguments than parameters, and exactly the others by name. *)
Definition proper (ps : list string) (args : list value) (kw : dict string value) : Prop :=
  (List.length args <= List.length ps)%nat /\ (forall n, In n (dkeys kw) <-> In n (skipn (List.length args) ps)).

(** Number of items of a value. *)
Inductive holds (w : world) : value -> nat -> Prop :=
| holds_text s : holds w (VStr s) (String.length s)
| holds_bytes b : holds w (VBytes b) (List.length b)
| holds_seq l : holds w (VSeq l) (List.length l)
| holds_array c z n : w_array w c z = Some n -> holds w (VAtom c z) n
| holds_buffer c r b : w_thing w r = ABuffer b -> holds w (VObj c r) (b_count b)
| holds_list c r l b : w_thing w r = AList l -> l_sizes l = SizesIn b -> holds w (VObj c r) (b_count b).
(** The visuals made of lines evaluate a transform given as positions. *)
Definition of_lines (k : Visual.vkind) : Prop := k = Visual.Segments \/ k = Visual.Paths \/ k = Visual.Polygons.
Definition grouped (k : Visual.vkind) : Prop := k = Visual.Paths \/ k = Visual.Polygons.
(** Number of positions. *)
Inductive counted (w : world) (k : Visual.vkind) : value -> nat -> Prop :=
| counted_value p n : holds w p n -> counted w k p n
| counted_transform c r v n : of_lines k -> w_thing w r = ATransform (Ok v) -> holds w v n -> counted w k (VObj c r) n.
(** Number of groups: of a size each, the rest being left out; or one for each item. *)
Definition number (v : value) (z : Z) : Prop := v = VInt z \/ v = VOid z.
Inductive grouping (w : world) (n : nat) : value -> nat -> Prop :=
| grouping_size v z m : number v z -> (0 < z)%Z -> (Z.of_nat m * z <= Z.of_nat n < (Z.of_nat m + 1) * z)%Z -> grouping w n v m
| grouping_none v z : number v z -> (z < 0)%Z -> n = 0%nat -> grouping w n v 0
| grouping_items v m : holds w v m -> grouping w n v m.
(** Shape of each output array. *)
Definition shape (k : Visual.vkind) (n m : Z) (name : string) : list Z :=
  (if String.eqb name "screen[positions]" then match k with Visual.Segments => [n; 2; 3] | _ => [n; 3] end
   else if String.eqb name "screen[paths]" then [m; 3]
   else if String.eqb name "screen[polygons]" then [m; 3]
   else if String.eqb name "axis" then [n; 3]
   else if String.eqb name "fill_colors" then [n; 4]
   else if String.eqb name "line_colors" then [n; 4]
   else if String.eqb name "line_caps" then [n; 2]
   else [n])%Z.

(** For the examples: object 0 is a buffer of six, 1 a transform giving an array of
    six, 2 a list of groups of three, 3 a list of three groups. *)
Definition six : buffer := mkBuffer 6 12 SNone None.
Definition ex_world : world :=
  mkW (fun r => match r with
                | 0 => ABuffer six
                | 1 => ATransform (Ok (VAtom "ndarray" 6))
                | 2 => AList (mkList six (OneSize 3))
                | 3 => AList (mkList six (SizesIn (mkBuffer 3 4 SNone None)))
                | _ => Another
                end)%nat
      (fun c z => if String.eqb c "ndarray" then Some (Z.to_nat z) else None).
Definition ex_kw (indices : value) : dict string value :=
  [("line_caps", VInt 1); ("indices", indices); ("line_colors", VSeq [VInt 0; VInt 0; VInt 0; VInt 1]); ("line_widths", VInt 2);
   ("line_styles", VInt 0); ("line_joins", VInt 0)]%Z.
