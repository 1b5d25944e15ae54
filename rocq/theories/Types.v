(** The converters of gsp/__init__.py:19-49, gsp/core/data.py:7-10 and
    gsp_matplotlib/__init__.py:24-67, and the types Matrix and Marker of
    gsp/core/types.py:37-56 and 137-149. *)
From Verif Require Import Base Base64 Buffer.
Local Open Scope nat_scope.
Local Open Scope list_scope.
Local Open Scope string_scope.

(** The values the converters meet.  An array has a shape, the size of a number in
    bytes, whether it is float32, whether its memory is contiguous, and its place in
    memory; a tracked one also has the buffer of its tracker.  Other objects are
    known by their class and a number.
    gsp/__init__.py:19-49, gsp/core/data.py:7-10 and gsp_matplotlib/__init__.py:24-76. *)
Inductive pv :=
| PNone
| PInt (z : Z)
| PText (s : string)
| PList (l : list pv)
| PTuple (l : list pv)
| PColor (r g b a : pv)
| PMarker (n : Z)
| PArray (shape : list nat) (width : nat) (float32 contiguous : bool) (place : nat)
| PTracked (b : buffer)
| PBuffer (b : buffer)
| PMatrix (place : nat) (size : nat)
| PObject (class : string) (id : Z).
(** [type(value).__name__]. gsp/io/command.py:250-275. *)
Definition class_of (v : pv) : string :=
  match v with
  | PNone => "NoneType" | PInt _ => "int" | PText _ => "str" | PList _ => "list" | PTuple _ => "tuple"
  | PColor _ _ _ _ => "Color" | PMarker _ => "Marker" | PArray _ _ _ _ _ => "ndarray" | PTracked _ => "tracked"
  | PBuffer _ => "Buffer" | PMatrix _ _ => "Matrix" | PObject c _ => c
  end.

(** memoryview(bytes(obj)), gsp/__init__.py:19-21: bytes of a text needs an
    encoding. *)
Definition str_to_memoryview (v : pv) : res pv := Err TypeError.
(** core.Color( *obj), gsp/__init__.py:23-29.  Color is a namedtuple of four fields,
    gsp/core/types.py:9. *)
Definition to_color (l : list pv) : res pv :=
  match l with [r; g; b; a] => Ok (PColor r g b a) | _ => Err TypeError end.
(** gsp/__init__.py:23-25. *)
Definition list_to_Color (v : pv) : res pv := match v with PList l => to_color l | _ => Err TypeError end.
(** gsp/__init__.py:27-29. *)
Definition tuple_to_Color (v : pv) : res pv := match v with PTuple l => to_color l | PColor r g b a => Ok v | _ => Err TypeError end.
(** gsp/__init__.py:31-37: a namedtuple has no attribute [_color]. *)
Definition Color_to_list (v : pv) : res pv := Err AttributeError.
(** gsp/__init__.py:35-37. *)
Definition Color_to_tuple (v : pv) : res pv := Err AttributeError.
(** gsp/__init__.py:39-45; of a Color too, since it is a tuple. *)
Definition list_to_tuple (v : pv) : res pv := match v with PList l => Ok (PTuple l) | _ => Err TypeError end.
(** gsp/__init__.py:43-45. *)
Definition tuple_to_list (v : pv) : res pv :=
  match v with PTuple l => Ok (PList l) | PColor r g b a => Ok (PList [r; g; b; a]) | _ => Err TypeError end.
(** Object.objects[obj], gsp/__init__.py:47-49. *)
Definition int_to_Canvas (objects : dict Z pv) (v : pv) : res pv :=
  match v with
  | PInt z => match dget objects z with Some o => Ok o | None => Err KeyError end
  | _ => Err KeyError
  end.
(** gsp/core/data.py:7-10. *)
Definition None_to_list (v : pv) : res pv := Ok (PList []).
(** gsp_matplotlib/__init__.py:24-26: the name Matrix is not imported there. *)
Definition ndarray_to_Matrix (v : pv) : res pv := Err NameError.
(** gsp_matplotlib/__init__.py:29-38: a list has no method view. *)
Definition list_to_Buffer (v : pv) : res pv := Err AttributeError.
(** gsp_matplotlib/__init__.py:40-47.  Line 42 asks the length of each element; line
    43 makes an array with as many axes as there are elements, [tracker] says how it
    ends; line 46 asks a list for a method view. *)
Definition has_len (v : pv) : bool :=
  match v with PText _ | PList _ | PTuple _ | PColor _ _ _ _ | PBuffer _ | PTracked _ => true | PArray (_ :: _) _ _ _ _ => true | _ => false end.
(** gsp_matplotlib/__init__.py:40-47. *)
Definition list_to_List (tracker : list pv -> res unit) (v : pv) : res pv :=
  match v with
  | PList l => if forallb has_len l then let* _ := tracker l in Err AttributeError else Err TypeError
  | _ => Err TypeError
  end.
(** Marker(obj), gsp_matplotlib/__init__.py:49-51 and gsp/core/types.py:137-149. *)
Definition int_to_Marker (v : pv) : res pv :=
  match v with
  | PInt z | PMarker z => if ((1 <=? z) && (z <=? 12))%Z then Ok (PMarker z) else Err ValueError
  | _ => Err ValueError
  end.
(** gsp_matplotlib/__init__.py:53-63 with Tracker.__init__, 70-76: an array without
    axes has no length. *)
Definition ndarray_to_Buffer (v : pv) : res pv :=
  match v with
  | PArray (n :: _) w _ _ a => Ok (PBuffer (tracker_buffer a n w))
  | PArray [] _ _ _ _ => Err TypeError
  | _ => Err AttributeError
  end.
(** gsp_matplotlib/__init__.py:65-67. *)
Definition tracked_to_Buffer (v : pv) : res pv :=
  match v with PTracked b => Ok (PBuffer b) | _ => Err AttributeError end.

(** Matrix.__init__, gsp/core/types.py:42-53: np.frombuffer with float32.  The size
    is the number of values. *)
Definition total (shape : list nat) : nat := fold_right Nat.mul 1 shape.
(** gsp/core/types.py:42-53. *)
Definition matrix (v : pv) : res pv :=
  match v with
  | PArray shape w f32 contiguous a =>
      if contiguous then
        if ((total shape * w) mod 4 =? 0)%nat then Ok (PMatrix a (total shape * w / 4)%nat) else Err ValueError
      else Err ValueError
  | _ => Err TypeError
  end.

(** All of them, by the names they are registered with.
    gsp/__init__.py:19-49, gsp/core/data.py:7-10 and gsp_matplotlib/__init__.py:24-67. *)
Definition registered (objects : dict Z pv) (tracker : list pv -> res unit) : list (string * string * (pv -> res pv)) :=
  [ ("str", "memoryview", str_to_memoryview); ("list", "Color", list_to_Color); ("tuple", "Color", tuple_to_Color);
    ("Color", "list", Color_to_list); ("Color", "tuple", Color_to_tuple); ("list", "tuple", list_to_tuple);
    ("tuple", "list", tuple_to_list); ("int", "Canvas", int_to_Canvas objects); ("NoneType", "list", None_to_list);
    ("ndarray", "Matrix", ndarray_to_Matrix); ("list", "Buffer", list_to_Buffer); ("list", "List", list_to_List tracker);
    ("int", "Marker", int_to_Marker); ("ndarray", "Buffer", ndarray_to_Buffer); ("tracked", "Buffer", tracked_to_Buffer) ].
