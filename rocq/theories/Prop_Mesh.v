(** C89: reading a mesh. *)
From Verif Require Import Base Mesh MeshSpec MeshFacts.
Open Scope string_scope.

(** The lists the reader collects are what the file says, in order; texture and
    normal numbers are kept for the faces that give them at every corner. *)
Theorem C89_collected_partial {F} (num : string -> res F) (int : string -> res Z) file items :
  Forall2 (says num int) file items ->
  read_lines num int (mkL [] [] [] [] [] []) file =
    Ok (mkL (vertices_of items) (textures_of items) (normals_of items)
            (map (map (fun c => fst (fst c))) (faces_of items))
            (flat_map (fun f => some_of (complete (map (fun c => snd (fst c)) f))) (faces_of items))
            (flat_map (fun f => some_of (complete (map snd f))) (faces_of items))).
Proof. exact (fun H => read_lines_says num int file items H (mkL [] [] [] [] [] [])). Qed.
Print Assumptions C89_collected_partial.

(** But no file can be read: the names used to fit the vertices do not exist. *)
Theorem C89_mesh_refuted {F} (num : string -> res F) (int : string -> res Z) :
  (forall file, exists e, mesh num int file = Err e) /\
  (forall file items v, Forall2 (says num int) file items -> In v (vertices_of items) ->
     (forall w, In w (vertices_of items) -> length w = length v) -> mesh num int file = Err NameError).
Proof. exact (conj (mesh_never num int) (mesh_name_error num int)). Qed.
Print Assumptions C89_mesh_refuted.
(** Vertices of different lengths, or none, are refused before that. *)
Theorem C89_ragged_refused {F} (num : string -> res F) (int : string -> res Z) file items : Forall2 (says num int) file items ->
  vertices_of items = [] \/ (exists v w, In v (vertices_of items) /\ In w (vertices_of items) /\ length v <> length w) ->
  mesh num int file = Err ValueError.
Proof. exact (mesh_value_error num int file items). Qed.
Print Assumptions C89_ragged_refused.
(** With a [fit] that works, the vertices are what it makes of those of the file
    and the faces are the numbers of their vertices, counted from zero. *)
Theorem C89_repaired {F} (num : string -> res F) (int : string -> res Z) (ft : list (list F) -> res (list (list F))) file items v :
  Forall2 (says num int) file items ->
  (forall a b, In a (vertices_of items) -> In b (vertices_of items) -> length a = length b) ->
  ft (vertices_of items) = Ok v ->
  ((forall a b, In a (faces_of items) -> In b (faces_of items) -> length a = length b) ->
   mesh_with num int ft file = Ok (v, map (map (fun c => fst (fst c) - 1)%Z) (faces_of items))) /\
  (forall f g, In f (faces_of items) -> In g (faces_of items) -> length f <> length g -> mesh_with num int ft file = Err ValueError).
Proof.
  exact (fun H Hv Hft => conj (fun Hf => mesh_with_fit num int ft file items v H Hv Hf Hft)
                              (fun f g Hf Hg N => mesh_with_ragged num int ft file items v f g H Hv Hf Hg N Hft)).
Qed.
Print Assumptions C89_repaired.
(** The words of a line are what is between its blanks, and the parts of a corner
    what is between its slashes. *)
Theorem C89_words : (forall line ws, spelled line ws -> words line = ws) /\
  (forall p ps, (forall u, In u (p :: ps) -> ~ In "/"%char (list_ascii_of_string u)) -> parts (String.concat "/" (p :: ps)) = p :: ps).
Proof. exact (conj words_spelled parts_slashed). Qed.
Print Assumptions C89_words.
Theorem C89_fit_center_refuted {F} (rows : list (list F)) : rows <> [] -> fit rows = Err NameError /\ center rows = Err NameError.
Proof. exact (fun H => match rows as r return r <> [] -> fit r = Err NameError /\ center r = Err NameError with
                       | [] => fun H => match H eq_refl with end | _ :: _ => fun _ => conj eq_refl eq_refl end H). Qed.
Print Assumptions C89_fit_center_refuted.

(** Texture numbers lose their face when another face has none. *)
Theorem C89_textures_refuted : exists m : lists (F := nat),
  read_lines (fun _ => Ok 0%nat) (fun s => if String.eqb s "" then Err ValueError else Ok (Z.of_nat (String.length s)))
    (mkL [] [] [] [] [] []) ["f 1 2 3"; "f 1/1 2/2 3/3"] = Ok m /\ length (l_vi m) = 2%nat /\ length (l_ti m) = 1%nat.
Proof. eexists. split; [vm_compute; reflexivity|]. split; reflexivity. Qed.
Print Assumptions C89_textures_refuted.

Example C89_case :
  let num := fun s : string => Ok (String.length s) in
  let int := fun s => if String.eqb s "" then Err ValueError else Ok (Z.of_nat (String.length s)) in
  Forall2 (says num int) ["# cube"; "v 0.0 1 22"; ""; "f 1//22 333/1/1"; "usemtl x"]
    [Nothing; Vertex [3; 1; 2]%nat; Nothing; Face [(1, None, Some 2); (3, Some 1, Some 1)]%Z; Nothing].
Proof.
  cbv zeta. apply Forall2_cons; [|apply Forall2_cons; [|apply Forall2_cons; [|apply Forall2_cons; [|apply Forall2_cons; [|apply Forall2_nil]]]]].
  - left. reflexivity.
  - exists ["0.0"; "1"; "22"]. split; [split; reflexivity|]. repeat (apply Forall2_cons; [reflexivity|]). apply Forall2_nil.
  - right. left. reflexivity.
  - exists ["1//22"; "333/1/1"]. split; [split; reflexivity|]. apply Forall2_cons; [|apply Forall2_cons; [|apply Forall2_nil]].
    + split; [exists "1"; split; reflexivity|]. split; [|exists "22"; split; reflexivity].
      intros w H. injection H as <-. reflexivity.
    + split; [exists "333"; split; reflexivity|]. split; exists "1"; split; reflexivity.
  - right. right. exists "usemtl", ["x"]. split; [reflexivity|]. cbn. intuition discriminate.
Qed.
Example C89_spelled : spelled "  v 1.0   2" ["v"; "1.0"; "2"].
Proof.
  assert (B : forall s, forallb blank (list_ascii_of_string s) = true -> all_blank s) by (intros s H c Hc; apply blank_spec; now apply (proj1 (forallb_forall _ _) H)).
  assert (N : forall s, forallb (fun c => negb (blank c)) (list_ascii_of_string s) = true -> no_blank s)
    by (intros s H c Hc K; apply (proj1 (forallb_forall _ _) H) in Hc; apply blank_spec in K; now rewrite K in Hc).
  apply (spelled_word "  " "v" " 1.0   2"); [now apply B|discriminate|now apply N|intros c r H; injection H as <- <-; now apply blank_spec|].
  apply (spelled_word " " "1.0" "   2"); [now apply B|discriminate|now apply N|intros c r H; injection H as <- <-; now apply blank_spec|].
  apply (spelled_word "   " "2" ""); [now apply B|discriminate|now apply N|discriminate|]. now apply spelled_end, B.
Qed.
Example C89_repaired_case :
  let num := fun s : string => Ok (String.length s) in
  let int := fun s => if String.eqb s "" then Err ValueError else Ok (Z.of_nat (String.length s)) in
  mesh_with num int (fun v => Ok v) ["v 0.0 1 22"; "v 1 1 1"; "v 2 2 2"; "f 1 22/7 333"] = Ok ([[3; 1; 2]; [1; 1; 1]; [1; 1; 1]]%nat, [[0; 1; 2]]%Z).
Proof. reflexivity. Qed.
