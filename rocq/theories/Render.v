(** Rendering of visuals.  Models gsp_matplotlib/visual/points.py, markers.py,
    pixels.py, segments.py, paths.py and polygons.py: drawing order, attributes,
    grouping of vertices, and the change-tracking flag.

    Simplifications: positions are given after projection; coordinates are exact
    rationals and the x, y pair is opaque; numbers in attributes are integers;
    [None] is the depth NaN (mean of no vertices), which numpy sorts last; an item
    of a matplotlib collection takes the attribute at its rank modulo the number of
    attributes (matplotlib cycles them); np.argsort is a parameter. *)
From Coq Require Import QArith.
From Verif Require Import Base Slice.
Local Open Scope nat_scope.

(** Attribute values as eval_variable returns them (visual.py:65-87): an array
    with one row per value, a one-dimensional array holding one value (a colour
    given as a tuple, made an array by np.atleast_1d), or a value that is not an
    array (float, str).  One-dimensional arrays of numbers have rows of one
    number. *)
Inductive attr := Rows (l : list (list Z)) | Row (l : list Z) | Whole (z : Z).

(** [a[sort_indices]] when [a] is an array of [n] elements, [a] otherwise:
    points.py:75-91, markers.py:131-147, pixels.py:79-82, segments.py:76-86. *)
Definition attach (n : nat) (idx : list nat) (a : attr) : attr :=
  match a with
  | Rows l => if Nat.eqb (length l) n then Rows (pick l idx) else a
  | Row l => if Nat.eqb (length l) n then Row (pick l idx) else a
  | Whole _ => a
  end.
(** Sizes, points.py:93-97 and markers.py:149-153: [[sizes]*n] otherwise; a list
    of arrays is refused by matplotlib. *)
Definition attach_size (n : nat) (idx : list nat) (a : attr) : res attr :=
  match a with
  | Rows l => if Nat.eqb (length l) n then Ok (Rows (pick l idx)) else if Nat.eqb n 0 then Ok (Rows []) else Err ValueError
  | Row l => if Nat.eqb (length l) n then Ok (Row (pick l idx)) else if Nat.eqb n 0 then Ok (Rows []) else Err ValueError
  | Whole z => Ok (Rows (repeat [z] n))
  end.
(** Paths and polygons, paths.py:117-144 and polygons.py:113-155: [n] paths,
    [m] vertices. *)
Definition attach_path (n m : nat) (idx : list nat) (a : attr) : res attr :=
  let array len sorted :=
    if Nat.eqb len n then Ok sorted else if Nat.eqb len m then Err NotImplementedError else Ok a in
  match a with
  | Rows l => array (length l) (Rows (pick l idx))
  | Row l => array (length l) (Row (pick l idx))
  | Whole _ => Ok a
  end.
(** The value item number [i] of a collection takes.
    What matplotlib does with set_facecolors and the like, points.py:77-97. *)
Definition shown (i : nat) (a : attr) : option (list Z) :=
  match a with
  | Rows l => nth_error l (Nat.modulo i (length l))
  | Row l => Some l
  | Whole z => Some [z]
  end.
(** The items of a collection in drawing order, with the values of their
    attributes. points.py:71-97. *)
Definition collection {I} (items : list I) (attrs : list attr) : list (I * list (option (list Z))) :=
  combine items (map (fun i => map (shown i) attrs) (seq 0 (length items))).

Section Model.
Context {XY : Type}.
(** A vertex on screen with its depth, points.py:65-70. *)
Definition vertex : Type := XY * Q.
Variable argsort : list (option Q) -> list nat.

(** points.py:62-97: 1 - z is sorted. *)
Definition points (ps : list vertex) (face edge width size : attr) :
    res (list (XY * list (option (list Z)))) :=
  let n := length ps in
  let depth := map (fun p => 1 - snd p)%Q ps in
  let idx := argsort (map Some depth) in
  let* sz := attach_size n idx size in
  Ok (collection (pick (map fst ps) idx) [attach n idx face; attach n idx edge; attach n idx width; sz]).
(** markers.py:118-153: the same with one shape per marker. *)
Definition markers {S} (ps : list vertex) (shapes : list S) (face edge width size : attr) :
    res (list ((S * XY) * list (option (list Z)))) :=
  let n := length ps in
  let depth := map (fun p => 1 - snd p)%Q ps in
  let idx := argsort (map Some depth) in
  let* sz := attach_size n idx size in
  Ok (collection (combine (pick shapes idx) (pick (map fst ps) idx))
                 [attach n idx face; attach n idx edge; attach n idx width; sz]).
(** pixels.py:71-82: z is sorted.  No colours: None. *)
Definition pixels (ps : list vertex) (colors : option attr) : list (XY * list (option (list Z))) :=
  let n := length ps in
  let idx := argsort (map (fun p => Some (snd p)) ps) in
  collection (pick (map fst ps) idx) (match colors with Some a => [attach n idx a] | None => [] end).
(** segments.py:65-86. *)
Definition segments (ps : list (vertex * vertex)) (edge width : attr) : list ((XY * XY) * list (option (list Z))) :=
  let n := length ps in
  let depth := map (fun s => - ((snd (fst s) + snd (snd s)) / inject_Z 2))%Q ps in
  let idx := argsort (map Some depth) in
  collection (pick (map (fun s => (fst (fst s), fst (snd s))) ps) idx) [attach n idx edge; attach n idx width].

(** ** Grouping, paths.py:81-104 and polygons.py:77-100 *)
Section Group.
Context {A : Type}.
(** An int: consecutive groups of that size; floor division. paths.py:85-88. *)
Definition group_uniform (ps : list A) (size : Z) : res (list (list A)) :=
  if (size =? 0)%Z then Err ZeroDivisionError
  else let count := (Z.of_nat (length ps) / size)%Z in
       Ok (map (fun i => range ps (Z.of_nat i * size) ((Z.of_nat i + 1) * size)) (seq 0 (Z.to_nat count))).
(** An array of sizes; [wrap] is the arithmetic of its type ([end += size]). paths.py:91-98. *)
Fixpoint group_sizes (wrap : Z -> Z) (ps : list A) (start : Z) (sizes : list Z) : list (list A) :=
  match sizes with
  | [] => []
  | s :: r => let e := wrap (start + s)%Z in range ps start e :: group_sizes wrap ps e r
  end.
(** A list of index lists. [positions[index]], paths.py:104. *)
Fixpoint at_indices (ps : list A) (idx : list Z) : res (list A) :=
  match idx with
  | [] => Ok []
  | i :: r =>
      match norm_index (Z.of_nat (length ps)) i with
      | Some j => match nth_error ps (Z.to_nat j) with
                  | Some p => let* l := at_indices ps r in Ok (p :: l)
                  | None => Err IndexError
                  end
      | None => Err IndexError
      end
  end.
(** The loop, paths.py:101-104. *)
Fixpoint group_indices (ps : list A) (ll : list (list Z)) : res (list (list A)) :=
  match ll with
  | [] => Ok []
  | idx :: r => let* g := at_indices ps idx in let* l := group_indices ps r in Ok (g :: l)
  end.
(** The three forms of indices, paths.py:81-104 and polygons.py:77-100. *)
Inductive indices := Uniform (size : Z) | Sizes (wrap : Z -> Z) (l : list Z) | Indices (l : list (list Z)).
(** paths.py:81-104 and polygons.py:77-100. *)
Definition group (ps : list A) (i : indices) : res (list (list A)) :=
  match i with
  | Uniform size => group_uniform ps size
  | Sizes wrap l => Ok (group_sizes wrap ps 0%Z l)
  | Indices l => group_indices ps l
  end.
End Group.
(** The number of paths the constructors allocate for, gsp/visual/paths.py:160-163 and
    gsp/visual/polygons.py:155-158. *)
Definition path_count (n : nat) (i : indices) : res Z :=
  match i with
  | Uniform size => if (size =? 0)%Z then Err ZeroDivisionError else Ok (Z.of_nat n / size)%Z
  | Sizes _ l => Ok (Z.of_nat (length l))
  | Indices l => Ok (Z.of_nat (length l))
  end.

(** Mean depth, paths.py:108 and polygons.py:104. *)
Definition mean (l : list Q) : option Q :=
  match l with [] => None | _ => Some (fold_right Qplus 0 l / inject_Z (Z.of_nat (length l)))%Q end.
(** The depth of a path: the opposite of that mean, paths.py:108 and polygons.py:104. *)
Definition path_depth (p : list vertex) : option Q := option_map Qopp (mean (map snd p)).

(** The attributes one after the other, paths.py:116-144 and polygons.py:112-155. *)
Fixpoint attach_all (n m : nat) (idx : list nat) (l : list attr) : res (list attr) :=
  match l with
  | [] => Ok []
  | a :: r => let* b := attach_path n m idx a in let* bs := attach_all n m idx r in Ok (b :: bs)
  end.
(** paths.py:106-144 (attributes: line colours, line widths) and
    polygons.py:102-155 (fill colours, line colours, line widths). *)
Definition draw_groups (ps : list vertex) (i : indices) (attrs : list attr) :
    res (list (list XY * list (option (list Z)))) :=
  let* paths := group ps i in
  let idx := argsort (map path_depth paths) in
  let* l := attach_all (length paths) (length ps) idx attrs in
  Ok (collection (pick (map (map fst) paths) idx) l).
End Model.

(** ** The tracking flag *)
(** The steps of render, in order (for instance points.py:30-100): the base
    render, creating the collection, nothing more when the transform is None,
    the rest.  The flag is the class attribute [__tracker_class__]; it is saved
    and set to None after the base render and restored at both returns.  An
    exception leaves render at once. *)
Record steps := mkSteps { s_base : res unit; s_create : res unit; s_transform : bool; s_rest : res unit }.
(** The flag after render and how render ended, points.py:28-100. *)
Definition render_flag {T} (flag : option T) (s : steps) : option T * res unit :=
  match s_base s with
  | Err e => (flag, Err e)
  | Ok _ =>
      let tracker := flag in
      match s_create s with
      | Err e => (None, Err e)
      | Ok _ =>
          if s_transform s then match s_rest s with Err e => (None, Err e) | Ok _ => (tracker, Ok tt) end
          else (tracker, Ok tt)
      end
  end.
