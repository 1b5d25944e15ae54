(** Python indexing and slicing of sequences (also numpy basic indexing along
    one axis). *)
From Verif Require Import Base.
Local Open Scope Z_scope.

(** [l[i]]: negative indices count from the end; IndexError outside.
    As in gsp_matplotlib/glm/ndarray/ragged.py:100. *)
Definition norm_index (n i : Z) : option Z :=
  let j := if i <? 0 then i + n else i in
  if (0 <=? j) && (j <? n) then Some j else None.

(** slice.indices: bounds are shifted by the length when negative, then
    clamped. As in gsp_matplotlib/glm/ndarray/ragged.py:106. *)
Definition clamp (lo hi x : Z) : Z := Z.max lo (Z.min hi x).
(** A negative bound counts from the end, gsp_matplotlib/glm/ndarray/ragged.py:104-106. *)
Definition shift (n x : Z) : Z := if x <? 0 then x + n else x.
(** The first index of a slice, gsp_matplotlib/glm/ndarray/ragged.py:104-106. *)
Definition slice_start (n step : Z) (a : option Z) : Z :=
  match a with
  | None => if step <? 0 then n - 1 else 0
  | Some x => if step <? 0 then clamp (-1) (n - 1) (shift n x) else clamp 0 n (shift n x)
  end.
(** Where a slice stops, gsp_matplotlib/glm/ndarray/ragged.py:104-106. *)
Definition slice_stop (n step : Z) (b : option Z) : Z :=
  match b with
  | None => if step <? 0 then -1 else n
  | Some x => if step <? 0 then clamp (-1) (n - 1) (shift n x) else clamp 0 n (shift n x)
  end.
(** The number of indices of a slice, gsp_matplotlib/glm/ndarray/ragged.py:104-106. *)
Definition slice_count (start stop step : Z) : Z :=
  if step <? 0 then (if stop <? start then (start - stop - 1) / (- step) + 1 else 0)
  else (if start <? stop then (stop - start - 1) / step + 1 else 0).

(** The indices a slice selects, in order. gsp_matplotlib/glm/ndarray/ragged.py:104. *)
Definition slice_indices (n : Z) (a b : option Z) (step : Z) : list nat :=
  let start := slice_start n step a in
  let count := slice_count start (slice_stop n step b) step in
  map (fun k => Z.to_nat (start + Z.of_nat k * step)) (seq 0 (Z.to_nat count)).

(** The elements at some indices, gsp_matplotlib/glm/ndarray/ragged.py:102-104. *)
Definition pick {A} (l : list A) (idx : list nat) : list A :=
  flat_map (fun i => match nth_error l i with Some x => [x] | None => [] end) idx.

(** [l[a:b:step]]; a zero step is a ValueError. gsp_matplotlib/glm/ndarray/ragged.py:104 and 118. *)
Definition get_slice {A} (l : list A) (a b : option Z) (step : Z) : res (list A) :=
  if step =? 0 then Err ValueError
  else Ok (pick l (slice_indices (Z.of_nat (length l)) a b step)).

(** [l[a:b]]. gsp_matplotlib/glm/ndarray/ragged.py:106. *)
Definition range {A} (l : list A) (a b : Z) : list A :=
  let n := Z.of_nat (length l) in
  let a' := clamp 0 n (shift n a) in
  let b' := clamp 0 n (shift n b) in
  firstn (Z.to_nat (b' - a')) (skipn (Z.to_nat a') l).
