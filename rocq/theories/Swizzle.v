(** Swizzles.  Models gsp_matplotlib/glm/ndarray/swizzle.py with the vector
    classes of gsp_matplotlib/glm/ndarray/vectors.py.

    Arrays are a shape and the element at each index (indices in range only are
    meaningful).  Simplification: values are already numpy arrays
    (np.asarray(value), swizzle.py:37, has succeeded and kept the values); an
    attribute that is not a swizzle is outside the model. *)
From Verif Require Import Base.

(** The array being assigned, swizzle.py:37-38. *)
Record arr (A : Type) := mkArr { shape : list nat; at_ : list nat -> A }.
Arguments mkArr {A}. Arguments shape {A}. Arguments at_ {A}.

(** A vector array: all axes but the last, the number of components, and
    component [c] of element [i].
    The array whose attribute is read or set, swizzle.py:25 and 31, vectors.py:50, 63, 76. *)
Record vecs (A : Type) := mkVecs { lead : list nat; ncomp : nat; comp : list nat -> nat -> A }.
Arguments mkVecs {A}. Arguments lead {A}. Arguments ncomp {A}. Arguments comp {A}.

(** value.size, swizzle.py:47 and 59. *)
Definition prodn (l : list nat) : nat := fold_right Nat.mul 1 l.
(** len(self): the first axis. swizzle.py:47. *)
Definition vlen {A} (v : vecs A) : nat := hd (ncomp v) (lead v).

(** The swizzle attribute of the classes, vectors.py:50, 63, 76. *)
Definition alphabets (n : nat) : list (list ascii) :=
  match n with
  | 2 => [list_ascii_of_string "xy"; list_ascii_of_string "ra"]
  | 3 => [list_ascii_of_string "xyz"; list_ascii_of_string "rgb"]
  | 4 => [list_ascii_of_string "xyzw"; list_ascii_of_string "rgba"]
  | _ => []
  end.

(** str.index. swizzle.py:28 and 39. *)
Fixpoint index_of (s : list ascii) (c : ascii) : nat :=
  match s with [] => 0 | a :: r => if Ascii.eqb a c then 0 else S (index_of r c) end.
(** set(key).issubset(set(swizzle)), swizzle.py:27 and 36. *)
Definition subset (key s : list ascii) : bool := forallb (fun c => existsb (Ascii.eqb c) s) key.
(** The first swizzle of the class that has all the letters, swizzle.py:26-28, 35-39. *)
Fixpoint indices (sw : list (list ascii)) (key : list ascii) : option (list nat) :=
  match sw with
  | [] => None
  | s :: r => if subset key s then Some (map (index_of s) key) else indices r key
  end.

(** __getattr__, swizzle.py:25-29.  Indexing with a list checks every index. *)
Definition getattr {A} (sw : list (list ascii)) (v : vecs A) (key : list ascii) : res (vecs A) :=
  match indices sw key with
  | None => Err AttributeError
  | Some l =>
      if forallb (fun k => k <? ncomp v) l
      then Ok (mkVecs (lead v) (length l) (fun i j => comp v i (nth j l 0)))
      else Err IndexError
  end.

(** numpy broadcasting of a value to a target shape, on reversed shapes; extra
    axes of the value must have length 1. swizzle.py:44, 49, 54, 60 and 62. *)
Fixpoint bcast_ok (tr sr : list nat) : bool :=
  match sr with
  | [] => true
  | d :: sr' => match tr with
                | l :: tr' => ((d =? 1) || (d =? l)) && bcast_ok tr' sr'
                | [] => (d =? 1) && bcast_ok [] sr'
                end
  end.
(** Which element of the value goes to which element of the target, swizzle.py:44, 49, 54, 60 and 62. *)
Fixpoint bcast_index (ir sr : list nat) : list nat :=
  match sr with
  | [] => []
  | d :: sr' => match ir with
                | i :: ir' => (if d =? 1 then 0 else i) :: bcast_index ir' sr'
                | [] => 0 :: bcast_index [] sr'
                end
  end.

(** [self[..., k] = w]. swizzle.py:44, 49, 54, 60 and 62. *)
Definition assign {A} (v : vecs A) (k : nat) (w : arr A) : res (vecs A) :=
  if negb (k <? ncomp v) then Err IndexError
  else if bcast_ok (rev (lead v)) (rev (shape w)) then
    Ok (mkVecs (lead v) (ncomp v)
               (fun i c => if c =? k then at_ w (rev (bcast_index (rev i) (rev (shape w)))) else comp v i c))
  else Err ValueError.

(** np.squeeze. The index before the axes of length one were removed, swizzle.py:49. *)
Fixpoint unsqueeze (s i : list nat) : list nat :=
  match s with
  | [] => []
  | d :: r => if d =? 1 then 0 :: unsqueeze r i
              else match i with x :: i' => x :: unsqueeze r i' | [] => 0 :: unsqueeze r [] end
  end.
(** np.squeeze, swizzle.py:49. *)
Definition squeeze {A} (w : arr A) : arr A :=
  mkArr (filter (fun d => negb (d =? 1)) (shape w)) (fun i => at_ w (unsqueeze (shape w) i)).

(** [value[i]] and [value[..., t]]. swizzle.py:54 and 59-62. *)
Definition item {A} (w : arr A) (i : nat) : arr A := mkArr (tl (shape w)) (fun x => at_ w (i :: x)).
(** value[..., t], swizzle.py:59-62. *)
Definition column {A} (w : arr A) (t : nat) : arr A := mkArr (removelast (shape w)) (fun x => at_ w (x ++ [t])).

(** Row-major reshape. swizzle.py:60. *)
Fixpoint ravel_index (s i : list nat) : nat :=
  match s, i with d :: r, x :: i' => x * prodn r + ravel_index r i' | _, _ => 0 end.
(** The index of the element at a row-major position, swizzle.py:60. *)
Fixpoint unravel_index (s : list nat) (n : nat) : list nat :=
  match s with [] => [] | d :: r => n / prodn r :: unravel_index r (n mod prodn r) end.
(** value.reshape, swizzle.py:60. *)
Definition reshape {A} (w : arr A) (s : list nat) : arr A :=
  mkArr s (fun i => at_ w (unravel_index (shape w) (ravel_index s i))).

(** A loop of assignments; what was done before an error stays.
    swizzle.py:43-44, 48-49, 53-54 and 58-62. *)
Fixpoint assign_all {A} (v : vecs A) (l : list (nat * arr A)) : vecs A * res unit :=
  match l with
  | [] => (v, Ok tt)
  | (k, w) :: r => match assign v k w with
                   | Ok v' => assign_all v' r
                   | Err e => (v, Err e)
                   end
  end.

(** __setattr__, swizzle.py:31-67. *)
Definition setattr {A} (sw : list (list ascii)) (v : vecs A) (key : list ascii) (w : arr A) : vecs A * res unit :=
  match indices sw key with
  | None => (v, Ok tt)  (* an ordinary attribute *)
  | Some l =>
      match shape w with
      | [] => assign_all v (map (fun k => (k, w)) l)
      | d :: _ =>
          if vlen v =? prodn (shape w) then assign_all v (map (fun k => (k, squeeze w)) l)
          else if length key =? d then
            assign_all v (combine l (map (item w) (seq 0 (length l))))
          else if last (shape w) 0 =? length key then
            assign_all v (combine l (map (fun t =>
              if prodn (lead v) =? prodn (removelast (shape w))
              then reshape (column w t) (lead v) else column w t) (seq 0 (length l))))
          else (v, Err IndexError)
      end
  end.
