(** Tracked arrays.  Models gsp_matplotlib/glm/ndarray/tracked.py.

    The base array owns a C-contiguous block of bytes.  Views are (address of
    the first element, (length, stride) per axis), as numpy keeps them; the base
    attribute of every view is the base array (numpy collapses chains of views
    of the same type).
    Simplifications: one base array; basic indexing only (fancy indexing raises
    NotImplementedError in __setitem__ before any effect); values are given as
    the bytes they put at each address. *)
From Verif Require Import Base Slice.
Local Open Scope Z_scope.

(** What numpy keeps of an array over the base: its place, and the length and stride of each axis; read at tracked.py:90-95. *)
Record view := mkView { v_off : Z; v_dims : list (Z * Z) }.

(** The places of the elements, tracked.py:90-95. *)
Fixpoint addresses (off : Z) (dims : list (Z * Z)) : list Z :=
  match dims with
  | [] => [off]
  | (n, s) :: r => flat_map (fun k => addresses (off + Z.of_nat k * s) r) (seq 0 (Z.to_nat n))
  end.
(** Addresses of the elements of a view. tracked.py:90-95. *)
Definition elements (v : view) : list Z := addresses (v_off v) (v_dims v).

(** C-contiguous strides. self.size, tracked.py:47 and 97. *)
Definition zprod (l : list Z) : Z := fold_right Z.mul 1 l.
(** The axes of the base array, tracked.py:37. *)
Fixpoint contiguous (w : Z) (shape : list Z) : list (Z * Z) :=
  match shape with [] => [] | n :: r => (n, w * zprod r) :: contiguous w r end.

(** Basic indexing, one entry per axis; missing entries are full slices.  numpy
    gives an empty slice the start 0 and the step 1. tracked.py:117 and 124. *)
Inductive ix := XInt (i : Z) | XSlice (a b : option Z) (step : Z).
(** What basic indexing does to each axis, tracked.py:117 and 124. *)
Fixpoint sub_dims (off : Z) (dims : list (Z * Z)) (key : list ix) {struct key} : res (Z * list (Z * Z)) :=
  match key, dims with
  | [], _ => Ok (off, dims)
  | _ :: _, [] => Err IndexError
  | XInt i :: kr, (n, s) :: dr =>
      match norm_index n i with
      | Some j => sub_dims (off + j * s) dr kr
      | None => Err IndexError
      end
  | XSlice a b c :: kr, (n, s) :: dr =>
      if c =? 0 then Err ValueError
      else
        let start := slice_start n c a in
        let cnt := slice_count start (slice_stop n c b) c in
        if cnt =? 0 then
          let* r := sub_dims off dr kr in Ok (fst r, (0, s) :: snd r)
        else
          let* r := sub_dims (off + start * s) dr kr in
          Ok (fst r, (cnt, s * c) :: snd r)
  end.
(** np.ndarray.__getitem__, tracked.py:117 and 124. *)
Definition sub (v : view) (key : list ix) : res view :=
  let* r := sub_dims (v_off v) (v_dims v) key in Ok (mkView (fst r) (snd r)).

(** [_compute_extents] of an array that is a view of the base array,
    tracked.py:89-96. *)
Definition extents (w : Z) (v : view) : Z * Z :=
  (v_off v, v_off v + (fold_right Z.add 0 (map (fun d => (fst d - 1) * snd d) (v_dims v)) + w)).

(** A Python variable holding a tracked array: the base array itself, or a view
    with its attributes _extents and _dirty. tracked.py:47-50 and 120. *)
Inductive handle := HBase | HView (v : view) (ext : Z * Z) (own_dirty : Z * Z).

(** The base array: element size [t_w], shape, contents, its _dirty attribute,
    whether it has a tracker, and the tracker's copy. tracked.py:36-53. *)
Record tstate := mkT {
  t_w : Z; t_shape : list Z; t_mem : Z -> Z; t_dirty : option (Z * Z);
  t_tracker : bool; t_copy : Z -> Z; t_handles : list handle }.

(** self.size*self.itemsize, tracked.py:47. *)
Definition nbytes (t : tstate) : Z := t_w t * zprod (t_shape t).
(** What a variable shows, tracked.py:90-95. *)
Definition view_of (t : tstate) (h : handle) : view :=
  match h with HBase => mkView 0 (contiguous (t_w t) (t_shape t)) | HView v _ _ => v end.
(** [_compute_extents(obj)], tracked.py:86-97: an array without base is
    (0, size * itemsize). *)
Definition obj_extents (t : tstate) (h : handle) : Z * Z :=
  match h with HBase => (0, nbytes t) | HView v _ _ => extents (t_w t) v end.
(** The _extents attribute: the base array's is set at creation (46-49), a
    view's by __getitem__ (120). *)
Definition ext_attr (t : tstate) (h : handle) : Z * Z :=
  match h with HBase => (0, nbytes t) | HView _ e _ => e end.

(** tracked.py:73-84; a view defers to its base. *)
Definition update (d : option (Z * Z)) (start stop : Z) : option (Z * Z) :=
  match d with
  | None => Some (start, stop)
  | Some (s, e) => Some (Z.min s start, Z.max e stop)
  end.
(** self._dirty = d, tracked.py:59, 61, 80 and 84. *)
Definition set_dirty (t : tstate) (d : option (Z * Z)) : tstate :=
  mkT (t_w t) (t_shape t) (t_mem t) d (t_tracker t) (t_copy t) (t_handles t).

(** Bytes of a view. tracked.py:90-96. *)
Definition touches (w : Z) (v : view) (x : Z) : bool :=
  existsb (fun a => (a <=? x) && (x <? a + w)) (elements v).
(** numpy's own assignment: the bytes of [v] take the values [val]. tracked.py:143. *)
Definition write (t : tstate) (v : view) (val : Z -> Z) : tstate :=
  mkT (t_w t) (t_shape t) (fun x => if touches (t_w t) v x then val x else t_mem t x)
      (t_dirty t) (t_tracker t) (t_copy t) (t_handles t).

(** set_data(start, data[start:stop].tobytes()), tracked.py:149-155, on the
    tracker of the class documentation (21-22).  [start] is never negative. *)
Definition send (t : tstate) (start stop : Z) : tstate :=
  let n := nbytes t in
  let lo := clamp 0 n (shift n start) in
  let hi := clamp 0 n (shift n stop) in
  mkT (t_w t) (t_shape t) (t_mem t) (t_dirty t) (t_tracker t)
      (fun x => if (lo <=? x) && (x <? hi) then t_mem t x else t_copy t x) (t_handles t).

(** np.ravel_multi_index(np.mod(key, shape), shape), tracked.py:131-132. *)
Fixpoint ravel (acc : Z) (shape : list Z) (key : list ix) {struct key} : Z :=
  match key, shape with
  | XInt i :: kr, n :: sr => ravel (acc * n + i mod n) sr kr
  | _, _ => acc
  end.

(** __getitem__, tracked.py:116-121 with __array_finalize__ (42-53): the new
    view's _dirty is the extents of the array it was taken from. *)
Definition getitem (t : tstate) (h : handle) (key : list ix) : res handle :=
  let* z := sub (view_of t h) key in Ok (HView z (extents (t_w t) z) (obj_extents t h)).

(** __setitem__, tracked.py:123-156. *)
Definition setitem (t : tstate) (h : handle) (key : list ix) (val : Z -> Z) : res tstate :=
  let* z := sub (view_of t h) key in
  let '(start, stop) :=
    match v_dims z with
    | [] => let o := ravel 0 (map fst (v_dims (view_of t h))) key * t_w t in (o, o + t_w t)
    | _ => extents (t_w t) z
    end in
  let t1 := set_dirty t (update (t_dirty t) start stop) in
  let t2 := write t1 z val in
  if t_tracker t2 then
    match h, t_dirty t2 with
    | HBase, Some (s, e) => Ok (set_dirty (send t2 s e) None)
    | HBase, None => Err TypeError
    | HView _ _ (s, e), _ => Ok (set_dirty (send t2 s e) None)
    end
  else Ok t2.

(** __iadd__, __isub__, __imul__, tracked.py:164-174. *)
Definition inplace (t : tstate) (h : handle) (val : Z -> Z) : tstate :=
  let '(s, e) := ext_attr t h in
  write (set_dirty t (update (t_dirty t) s e)) (view_of t h) val.
(** In-place operators the class does not override (true division, power, ...;
    __idiv__ at 176-178 is the Python 2 name). *)
Definition inplace_other (t : tstate) (h : handle) (val : Z -> Z) : tstate := write t (view_of t h) val.

(** clear, tracked.py:55-61. *)
Definition clear (t : tstate) : tstate := set_dirty t None.

(** A new base array: everything is dirty (46-50), the tracker has a copy. *)
Definition create (w : Z) (shape : list Z) (mem : Z -> Z) (tracker : bool) : tstate :=
  mkT w shape mem (Some (0, w * zprod shape)) tracker mem [HBase].

(** What programs do; handles are numbered, 0 being the base array.
    tracked.py:55-61, 116-143 and 164-178. *)
Inductive op :=
| OGet (h : nat) (key : list ix)
| OSet (h : nat) (key : list ix) (val : Z -> Z)
| OInplace (h : nat) (val : Z -> Z)
| OOther (h : nat) (val : Z -> Z)
| OClear.
(** One of them, tracked.py:55-61, 116-143 and 164-178. *)
Definition step (t : tstate) (o : op) : tstate :=
  match o with
  | OGet h key =>
      match nth_error (t_handles t) h with
      | Some x => match getitem t x key with
                  | Ok (HView z e d) =>
                      match v_dims z with
                      | [] => t  (* a scalar, not an array *)
                      | _ => mkT (t_w t) (t_shape t) (t_mem t) (t_dirty t) (t_tracker t) (t_copy t)
                                 (t_handles t ++ [HView z e d])
                      end
                  | _ => t
                  end
      | None => t
      end
  | OSet h key val =>
      match nth_error (t_handles t) h with
      | Some x => match setitem t x key val with Ok t' => t' | Err _ => t end
      | None => t
      end
  | OInplace h val =>
      match nth_error (t_handles t) h with Some x => inplace t x val | None => t end
  | OOther h val =>
      match nth_error (t_handles t) h with Some x => inplace_other t x val | None => t end
  | OClear => clear t
  end.
(** Several of them, in order, tracked.py:55-178. *)
Definition run (t : tstate) (l : list op) : tstate := fold_left step l t.
