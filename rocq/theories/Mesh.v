(** Reading a mesh from a Wavefront file.  Models gsp_matplotlib/glm/glm.py: mesh
    (7-38), fit (298-314), center (349-363).

    Simplifications: the file is the list of its lines; [num] and [int] are what
    float() and int() make of a word; arrays are lists of rows. *)
From Verif Require Import Base.
Open Scope string_scope.

(** Characters str.split() and str.isspace() take for blanks (ASCII). glm.py:18. *)
Definition blank (c : ascii) : bool :=
  let n := nat_of_ascii c in (((9 <=? n) && (n <=? 13)) || ((28 <=? n) && (n <=? 32)))%nat.

(** [line.split()]. glm.py:18. *)
Fixpoint words_from (w : string) (s : string) : list string :=
  match s with
  | EmptyString => if String.eqb w "" then [] else [w]
  | String c r =>
      if blank c then (if String.eqb w "" then words_from "" r else w :: words_from "" r)
      else words_from (w ++ String c "") r
  end.
(** glm.py:18. *)
Definition words (s : string) : list string := words_from "" s.

(** [indices.split('/')]. glm.py:28-34. *)
Fixpoint parts_from (w : string) (s : string) : list string :=
  match s with
  | EmptyString => [w]
  | String c r => if Ascii.eqb c "/" then w :: parts_from "" r else parts_from (w ++ String c "") r
  end.
(** glm.py:28-34. *)
Definition parts (s : string) : list string := parts_from "" s.

Section Mesh.
  Context {F : Type} (num : string -> res F) (int : string -> res Z).

  (** A list comprehension whose expression can raise. glm.py:22-34. *)
  Fixpoint each {A} (f : string -> res A) (l : list string) : res (list A) :=
    match l with
    | [] => Ok []
    | w :: r => let* x := f w in let* xs := each f r in Ok (x :: xs)
    end.
  (** [int(indices.split('/')[k])]. glm.py:28-34. *)
  Definition corner (k : nat) (w : string) : res Z :=
    match nth_error (parts w) k with Some p => int p | None => Err IndexError end.

  (** The six lists of line 13. *)
  Record lists := mkL { l_v : list (list F); l_t : list (list F); l_n : list (list F);
                        l_vi : list (list Z); l_ti : list (list Z); l_ni : list (list Z) }.
  (** The statements under [try], lines 29-36: nothing is appended when an
      expression raises. *)
  Definition try_append (l : list (list Z)) (x : res (list Z)) : list (list Z) :=
    match x with Ok y => (l ++ [y])%list | Err _ => l end.

  (** One turn of the loop, lines 15-36. *)
  Definition read_line (m : lists) (line : string) : res lists :=
    if prefix "#" line then Ok m else
    match words line with
    | [] => Ok m
    | w :: ws =>
        if String.eqb w "v" then
          let* x := each num (firstn 3 ws) in Ok (mkL (l_v m ++ [x]) (l_t m) (l_n m) (l_vi m) (l_ti m) (l_ni m))%list
        else if String.eqb w "vt" then
          let* x := each num (firstn 2 ws) in Ok (mkL (l_v m) (l_t m ++ [x]) (l_n m) (l_vi m) (l_ti m) (l_ni m))%list
        else if String.eqb w "vn" then
          let* x := each num (firstn 3 ws) in Ok (mkL (l_v m) (l_t m) (l_n m ++ [x]) (l_vi m) (l_ti m) (l_ni m))%list
        else if String.eqb w "f" then
          let* x := each (corner 0) ws in
          Ok (mkL (l_v m) (l_t m) (l_n m) (l_vi m ++ [x]) (try_append (l_ti m) (each (corner 1) ws))
                  (try_append (l_ni m) (each (corner 2) ws)))%list
        else Ok m
    end.
  (** The loop, glm.py:15-36. *)
  Fixpoint read_lines (m : lists) (file : list string) : res lists :=
    match file with
    | [] => Ok m
    | line :: r => let* m1 := read_line m line in read_lines m1 r
    end.

  (** [np.array] of a list of rows: ragged rows are refused. glm.py:38. *)
  Definition array {A} (rows : list (list A)) : res (list (list A)) :=
    match rows with
    | [] => Ok []
    | r :: rs => if forallb (fun x => Nat.eqb (length x) (length r)) rs then Ok rows else Err ValueError
    end.
  (** [vertices.min(axis=0)]: there is no least element of nothing. glm.py:310-314. *)
  Definition extent {A} (rows : list (list A)) : res unit := match rows with [] => Err ValueError | _ => Ok tt end.
  (** fit, lines 310-314: [Vmin] and [Vmax] are not defined. *)
  Definition fit (rows : list (list F)) : res (list (list F)) := let* _ := extent rows in Err NameError.
  (** center, lines 361-363: [V] is not defined. *)
  Definition center (rows : list (list F)) : res (list (list F)) := let* _ := extent rows in Err NameError.
  (** mesh, lines 13-38, for a given [fit]. *)
  Definition mesh_with (fit : list (list F) -> res (list (list F))) (file : list string) : res (list (list F) * list (list Z)) :=
    let* m := read_lines (mkL [] [] [] [] [] []) file in
    let* v := array (l_v m) in
    let* v := fit v in
    let* i := array (l_vi m) in
    Ok (v, map (map (fun z => z - 1)%Z) i).
  (** glm.py:7-38. *)
  Definition mesh : list string -> res (list (list F) * list (list Z)) := mesh_with fit.
End Mesh.
