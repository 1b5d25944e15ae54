(** Ragged arrays.  Models gsp_matplotlib/glm/ndarray/ragged.py.
    Simplification: the data is one-dimensional; its elements stand for the
    rows of a multi-dimensional array. *)
From Verif Require Import Base Slice.
Local Open Scope Z_scope.

Section Ragged.
  Context {A : Type}.

  (** The _data and _items attributes (_size and _count are their lengths). ragged.py:85-91. *)
  Record ragged := mkRag { rdata : list A; ritems : list (Z * Z) }.

  (** The itemsize argument: None, an int, or a sequence of sizes; a Python list
      that is empty becomes an array of floats, [int_array] tells whether the
      caller passed an integer array instead. ragged.py:43 and 53-61. *)
  Inductive isize := INone | IInt (n : Z) | ISeq (int_array : bool) (l : list Z).
  (** The data argument: an array, or a list or tuple of sequences. ragged.py:64-71. *)
  Inductive idata := Flat (l : list A) | Nested (l : list (list A)).

  (** np.cumsum, ragged.py:89. *)
  Fixpoint cumsum (acc : Z) (l : list Z) : list Z :=
    match l with [] => [] | x :: r => (acc + x) :: cumsum (acc + x) r end.
  (** np.sum, ragged.py:81. *)
  Definition zsum (l : list Z) : Z := fold_right Z.add 0 l.

  (** ragged.py:85-91: row i is (end of item i-1, end of item i). *)
  Definition items_of (sizes : list Z) : list (Z * Z) :=
    let c := cumsum 0 sizes in combine (0 :: c) c.

  (** ragged.py:80-91 (per-item sizes).  The in-place addition of the float
      array cumsum([]) to integers is a TypeError. *)
  Definition init_sizes (d : list A) (int_array : bool) (sizes : list Z) : res ragged :=
    if negb (zsum sizes =? Z.of_nat (length d)) then Err ValueError
    else match sizes with
         | [] => if int_array then Ok (mkRag d []) else Err TypeError
         | _ => Ok (mkRag d (items_of sizes))
         end.

  (** ragged.py:75-79. *)
  Definition init_int (d : list A) (n : Z) : res ragged :=
    let len := Z.of_nat (length d) in
    if n =? 0 then Err ZeroDivisionError
    else if negb (len mod n =? 0) then Err ValueError
    else
      let count := len / n in
      if count <? 0 then Err ValueError
      else if count =? 0 then Err ZeroDivisionError
      else Ok (mkRag d (items_of (repeat (len / count) (Z.to_nat count)))).

  (** ragged.py:43-91.  A list of sequences determines the sizes itself. *)
  Definition init (d : idata) (s : isize) : res ragged :=
    match d with
    | Nested [] => Err IndexError
    | Nested l => init_sizes (concat l) true (map (fun x => Z.of_nat (length x)) l)
    | Flat d =>
        match s with
        | INone => init_int d (Z.of_nat (length d))
        | IInt n => init_int d n
        | ISeq b l => init_sizes d b l
        end
    end.

  (** ragged.py:148-150 and 133-136. *)
  Definition rlen (r : ragged) : Z := Z.of_nat (length (ritems r)).
  (** The itemsize property, ragged.py:133-136. *)
  Definition itemsizes (r : ragged) : list Z := map (fun p => snd p - fst p) (ritems r).

  (** Keys: an integer, a list (or tuple) of integers, a slice. ragged.py:97-104 and 111-118. *)
  Inductive key := KInt (i : Z) | KList (l : list Z) | KSlice (a b : option Z) (step : Z).

  (** self._items[k], ragged.py:100, 104, 114, 118. *)
  Definition row (r : ragged) (i : Z) : res (Z * Z) :=
    match norm_index (rlen r) i with
    | Some j => match nth_error (ritems r) (Z.to_nat j) with Some p => Ok p | None => Err IndexError end
    | None => Err IndexError
    end.

  (** list(range(start, stop)). ragged.py:101 and 115. *)
  Definition zrange (a b : Z) : list Z := map (fun k => a + Z.of_nat k) (seq 0 (Z.to_nat (b - a))).

  (** ragged.py:98-101, 112-115. *)
  Fixpoint indices (r : ragged) (l : list Z) : res (list Z) :=
    match l with
    | [] => Ok []
    | k :: rest =>
        let* p := row r k in
        let* more := indices r rest in
        Ok (zrange (fst p) (snd p) ++ more)%list
    end.

  (** indices.min(), indices.max() (ragged.py:104-105, 118-119): ValueError on
      an empty selection. *)
  Definition bounds (rows : list (Z * Z)) : res (Z * Z) :=
    match flat_map (fun p => [fst p; snd p]) rows with
    | [] => Err ValueError
    | x :: l => Ok (fold_left Z.min l x, fold_left Z.max l x)
    end.
  (** self._items[key] and its extremes, ragged.py:104-105 and 118-119. *)
  Definition key_bounds (r : ragged) (k : key) : res (Z * Z) :=
    match k with
    | KInt i => let* p := row r i in bounds [p]
    | KSlice a b c => let* rows := get_slice (ritems r) a b c in bounds rows
    | KList _ => Err TypeError
    end.

  (** self._data[indices], ragged.py:102. *)
  Fixpoint pick_all (d : list A) (l : list Z) : res (list A) :=
    match l with
    | [] => Ok []
    | i :: rest =>
        match norm_index (Z.of_nat (length d)) i with
        | None => Err IndexError
        | Some j =>
            match nth_error d (Z.to_nat j) with
            | Some x => let* more := pick_all d rest in Ok (x :: more)
            | None => Err IndexError
            end
        end
    end.

  (** ragged.py:94-106. *)
  Definition get (r : ragged) (k : key) : res (list A) :=
    match k with
    | KList l => let* idx := indices r l in pick_all (rdata r) idx
    | _ => let* p := key_bounds r k in Ok (range (rdata r) (fst p) (snd p))
    end.

  (** Assigned values: one element for all, or a sequence (numpy broadcasting:
      as long as the target, or of length one). ragged.py:116 and 120. *)
  Inductive aval := AOne (x : A) | AMany (l : list A).
  (** The values assigned to [n] elements, ragged.py:116 and 120. *)
  Definition broadcast (n : nat) (v : aval) : res (list A) :=
    match v with
    | AOne x => Ok (repeat x n)
    | AMany l =>
        if Nat.eqb (length l) n then Ok l
        else match l with [x] => Ok (repeat x n) | _ => Err ValueError end
    end.

  (** [d[a:b] = v]. ragged.py:120. *)
  Definition set_range (d : list A) (a b : Z) (v : aval) : res (list A) :=
    let n := Z.of_nat (length d) in
    let a' := Z.to_nat (clamp 0 n (shift n a)) in
    let m := Z.to_nat (clamp 0 n (shift n b) - clamp 0 n (shift n a)) in
    let* w := broadcast m v in
    Ok (firstn a' d ++ w ++ skipn (a' + m) d)%list.

  (** [d[indices] = v], later assignments to the same place win. ragged.py:116. *)
  Fixpoint set_all (d : list A) (l : list (Z * A)) : res (list A) :=
    match l with
    | [] => Ok d
    | (i, x) :: rest =>
        match norm_index (Z.of_nat (length d)) i with
        | None => Err IndexError
        | Some j => set_all (upd d (Z.to_nat j) x) rest
        end
    end.

  (** ragged.py:108-120. *)
  Definition set (r : ragged) (k : key) (v : aval) : res ragged :=
    match k with
    | KList l =>
        let* idx := indices r l in
        let* w := broadcast (length idx) v in
        let* d := set_all (rdata r) (combine idx w) in
        Ok (mkRag d (ritems r))
    | _ =>
        let* p := key_bounds r k in
        let* d := set_range (rdata r) (fst p) (snd p) v in
        Ok (mkRag d (ritems r))
    end.
End Ragged.
Arguments ragged : clear implicits.
Arguments idata : clear implicits.
Arguments aval : clear implicits.
