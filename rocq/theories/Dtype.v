(** Data-type descriptions as text.  Models numpy_dtype_to_str and
    numpy_str_to_dtype, gsp/io/convert.py:145-177. *)
From Coq Require Import DecimalString.
From Verif Require Import Base.
Local Open Scope string_scope.

(** numpy's dtypes: an element type and a shape ([] unless it is a subarray).
    Element types are named by their type string ("<f4") or are structures: total
    size and (name, dtype, offset) fields.
    Simplification: no titles, no alignment flag.
    What convert.py:146-157 reads of a dtype and convert.py:177 makes. *)
Inductive elem :=
| EType (t : string)
| EStruct (size : nat) (fields : list (string * (elem * list nat) * nat)).
(** An element type with its shape, convert.py:150-151 and 155-156. *)
Definition dtype := (elem * list nat)%type.

(** A number in an f-string, convert.py:152 and 157. *)
Definition digits (n : nat) : string := NilEmpty.string_of_uint (Nat.to_uint n).
(** int(text), on decimal digits only. convert.py:166-172. *)
Definition parse_int (s : string) : res nat :=
  match s with
  | "" => Err ValueError
  | _ => match NilEmpty.uint_of_string s with
         | Some u => Ok (Nat.of_uint u)
         | None => Err ValueError
         end
  end.

(** str.split with a one-character separator, and str.join. convert.py:162 and 164. *)
Fixpoint split (sep : ascii) (s : string) : list string :=
  match s with
  | "" => [""]
  | String a r =>
      if Ascii.eqb a sep then "" :: split sep r
      else match split sep r with h :: t => String a h :: t | [] => [String a ""] end
  end.
(** str.join, convert.py:153. *)
Fixpoint join (sep : ascii) (l : list string) : string :=
  match l with [] => "" | [x] => x | x :: r => x ++ String sep (join sep r) end.

(** int(np.prod(shape)). convert.py:150 and 155. *)
Definition count (shape : list nat) : nat := fold_right Nat.mul 1%nat shape.
(** dt.base.str: structures are void types of their size. convert.py:151 and 156. *)
Definition base_str (e : elem) : string :=
  match e with EType t => t | EStruct n _ => "|V" ++ digits n end.
(** The separator of convert.py:152, 157 and 164. *)
Definition colon : ascii := ":".
(** The separator of convert.py:153 and 162. *)
Definition comma : ascii := ",".
(** f"{type}:{name}:{size}". convert.py:152 and 157. *)
Definition element (name : string) (d : dtype) : string :=
  base_str (fst d) ++ String colon (name ++ String colon (digits (count (snd d)))).

(** convert.py:146-157.  dt.names is empty unless the dtype is a structure
    (subarrays of structures have no names). *)
Definition dtype_to_str (d : dtype) : string :=
  match d with
  | (EStruct _ ((_ :: _) as fields), []) =>
      join comma (map (fun f => element (fst (fst f)) (snd (fst f))) fields)
  | _ => element "" d
  end.

(** What numpy makes of type strings: their item size, None if unknown.
    Consulted by np.dtype, convert.py:177. *)
Definition sizes := string -> option nat.

(** One element of the description: name, type, count when > 1
    (convert.py:163-174). *)
Definition parse_element (s : string) : res (string * string * option nat) :=
  match split colon s with
  | [t; name; size] =>
      let* n := (if String.eqb size "" then Ok None
                 else let* k := parse_int size in Ok (if (1 <? k)%nat then Some k else None)) in
      Ok (name, t, n)
  | _ => Err ValueError
  end.
(** The loop of convert.py:163-174. *)
Fixpoint parse_elements (l : list string) : res (list (string * string * option nat)) :=
  match l with
  | [] => Ok []
  | s :: r => let* x := parse_element s in let* y := parse_elements r in Ok (x :: y)
  end.

(** The count of an entry as a shape, convert.py:166-174. *)
Definition shape_of (n : option nat) : list nat := match n with Some k => [k] | None => [] end.
(** np.dtype of a type string, or (type string, count). convert.py:175-177. *)
Definition np_dtype (sz : sizes) (t : string) (n : option nat) : res dtype :=
  match sz t with Some _ => Ok (EType t, shape_of n) | None => Err TypeError end.
(** np.dtype of a list of (name, type[, count]): fields one after the other;
    entries without a name are rejected, and so are repeated names. convert.py:177. *)
Fixpoint np_fields (sz : sizes) (off : nat) (seen : list string) (l : list (string * string * option nat))
  : res (nat * list (string * dtype * nat)) :=
  match l with
  | [] => Ok (off, [])
  | (name, t, n) :: r =>
      if String.eqb name "" then Err TypeError
      else if existsb (String.eqb name) seen then Err ValueError
      else match sz t with
           | None => Err TypeError
           | Some k =>
               let* y := np_fields sz (off + k * count (shape_of n)) (name :: seen) r in
               Ok (fst y, (name, (EType t, shape_of n), off) :: snd y)
           end
  end.

(** convert.py:160-177; the last name decides whether a single entry is
    unwrapped. *)
Definition str_to_dtype (sz : sizes) (s : string) : res dtype :=
  let* l := parse_elements (split comma s) in
  match l with
  | [("", t, n)] => np_dtype sz t n
  | _ => let* y := np_fields sz 0 [] l in Ok (EStruct (fst y) (snd y), [])
  end.
