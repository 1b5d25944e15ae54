(** Arrays made by glm.  Models gsp_matplotlib/glm/vec234.py:76-196, 264-340,
    410-486, gsp_matplotlib/glm/mat234.py:10-242, gsp_matplotlib/glm/ndarray/vectors.py and
    gsp_matplotlib/glm/ndarray/matrices.py.

    Simplifications: an array is its shape and the type of its elements (np.empty
    gives no contents); counts are None, an integer or a tuple of integers. *)
From Verif Require Import Base.
Local Open Scope string_scope.

(** The dtype arguments of vec234.py and mat234.py. *)
Inductive etype := I8 | U8 | I32 | U32 | F16 | F32 | F64.
(** scalar, vec2, vec3, vec4, mat2, mat3, mat4: the shape of one item, vectors.py:14-32
    and matrices.py:12-25. *)
Inductive family := Scalar | Vec (n : nat) | Mat (n : nat).
(** vectors.py:14-32 and matrices.py:12-25. *)
Definition item_shape (f : family) : list nat :=
  match f with Scalar => [] | Vec n => [n] | Mat n => [n; n] end.
(** The argument of vectors.py:39, 52, 65, 78 and matrices.py:32, 45, 58. *)
Inductive count := CNone | CInt (n : Z) | CTuple (l : list Z).
(** What np.ndarray.__new__ returns, vectors.py:44-45. *)
Record array := mkArray { a_shape : list nat; a_type : etype }.
(** np.ndarray.__new__(cls, shape, dtype) with the type of an item. vectors.py:44-45. *)
Definition ndarray_new (shape : list Z) (f : family) (t : etype) : res array :=
  if existsb (fun n => (n <? 0)%Z) shape then Err ValueError
  else Ok (mkArray (map Z.to_nat shape ++ item_shape f) t).
(** ndarray.squeeze. vectors.py:42-43. *)
Definition squeeze (a : array) : array := mkArray (filter (fun n => negb (n =? 1)%nat) (a_shape a)) (a_type a).
(** vectors.py:39-45, 52-58, 65-71, 78-84; matrices.py:32-38, 45-51, 58-64. *)
Definition make (f : family) (t : etype) (c : count) : res array :=
  match c with
  | CNone => let* a := ndarray_new [1%Z] f t in Ok (squeeze a)
  | CInt n => ndarray_new [n] f t
  | CTuple l => ndarray_new l f t
  end.
(** The functions of vec234.py and mat234.py: class and type each passes on. *)
Definition functions : list (string * (family * etype)) :=
  [("byte", (Scalar, I8)); ("ubyte", (Scalar, U8)); ("float", (Scalar, F32));
   ("bvec2", (Vec 2, U8)); ("ivec2", (Vec 2, I32)); ("uvec2", (Vec 2, U32)); ("hvec2", (Vec 2, F16)); ("vec2", (Vec 2, F32)); ("dvec2", (Vec 2, F64));
   ("bvec3", (Vec 3, U8)); ("ivec3", (Vec 3, I32)); ("uvec3", (Vec 3, U32)); ("hvec3", (Vec 3, F16)); ("vec3", (Vec 3, F32)); ("dvec3", (Vec 3, F64));
   ("bvec4", (Vec 4, U8)); ("ivec4", (Vec 4, I32)); ("uvec4", (Vec 4, U32)); ("hvec4", (Vec 4, F16)); ("vec4", (Vec 4, F32)); ("dvec4", (Vec 4, F64));
   ("bmat2", (Mat 2, U8)); ("imat2", (Mat 2, I32)); ("umat2", (Mat 2, U32)); ("hmat2", (Mat 2, F16)); ("mat2", (Mat 2, F32)); ("dmat2", (Mat 2, F64));
   ("bmat3", (Mat 3, U8)); ("imat3", (Mat 3, I32)); ("umat3", (Mat 3, U32)); ("hmat3", (Mat 3, F16)); ("mat3", (Mat 3, F32)); ("dmat3", (Mat 3, F64));
   ("bmat4", (Mat 4, U8)); ("imat4", (Mat 4, I32)); ("umat4", (Mat 4, U32)); ("hmat4", (Mat 4, F16)); ("mat4", (Mat 4, F32)); ("dmat4", (Mat 4, F64))].
(** A call of one of them by name. *)
Definition call (name : string) (c : count) : res array :=
  match dget functions name with Some (f, t) => make f t c | None => Err NameError end.
