(** What one transform does to a value: gsp/transform/accessor.py:36-56,
    gsp/transform/out.py:46-74 and gsp/transform/colormap.py.

    Simplifications: numbers are exact rationals; the fields of a structured array
    are arrays of numbers. *)
From Verif Require Import Base.
From Coq Require Export QArith Qcanon.
Local Open Scope list_scope.
Local Open Scope nat_scope.

(** Values: an array of numbers (shape, contents in C order), a structured array
    (its shape and, by field, shape of one item and contents), or something without
    a dtype, such as a gsp Buffer or a Python number.
    accessor.py:44-56, out.py:67-72, colormap.py:77-84. *)
Inductive value :=
| VArr (shape : list nat) (l : list Qc)
| VRec (shape : list nat) (fields : list (string * (list nat * list Qc)))
| VOther.
(** Number of elements. accessor.py:44-56. *)
Definition count (shape : list nat) : nat := fold_right Nat.mul 1 shape.

(** Python's [s in t] and [t.index(s)] for texts: the first place [s] occurs. accessor.py:46-49. *)
Fixpoint find (s t : string) : option nat :=
  if prefix s t then Some 0 else
  match t with
  | EmptyString => None
  | String _ t' => match find s t' with Some i => Some (S i) | None => None end
  end.

(** [a[..., k]]. accessor.py:47 and 49. *)
Definition pick (shape : list nat) (l : list Qc) (k : nat) : res value :=
  match rev shape with
  | [] => Err IndexError
  | c :: r => if k <? c
              then Ok (VArr (rev r) (map (fun i => nth (i * c + k) l 0%Qc) (seq 0 (count (rev r)))))
              else Err IndexError
  end.
(** [a[..., [k1, k2, ...]]]. out.py:70. *)
Definition pick_all (shape : list nat) (l : list Qc) (ks : list nat) : res value :=
  match rev shape with
  | [] => Err IndexError
  | c :: r => if forallb (fun k => k <? c) ks
              then Ok (VArr (rev r ++ [length ks])
                         (flat_map (fun i => map (fun k => nth (i * c + k) l 0%Qc) ks) (seq 0 (count (rev r)))))
              else Err IndexError
  end.
(** [a[index]] for a list of integers: negative ones count from the end. accessor.py:54. *)
Definition wrap (n : nat) (z : Z) : option nat :=
  if (0 <=? z)%Z then (if (z <? Z.of_nat n)%Z then Some (Z.to_nat z) else None)
  else if (- Z.of_nat n <=? z)%Z then Some (Z.to_nat (z + Z.of_nat n)) else None.
(** For the whole list: the first one outside is an IndexError, accessor.py:54. *)
Fixpoint wraps (n : nat) (l : list Z) : res (list nat) :=
  match l with
  | [] => Ok []
  | z :: l' => match wrap n z with None => Err IndexError | Some i => let* r := wraps n l' in Ok (i :: r) end
  end.
(** The rows of an array at some places, accessor.py:54. *)
Definition rows_at (size : nat) (l : list Qc) (idx : list nat) : list Qc :=
  flat_map (fun i => firstn size (skipn (i * size) l)) idx.
(** [buffer[index]], accessor.py:54. *)
Definition take (v : value) (idx : list Z) : res value :=
  match v with
  | VArr (n :: sh) l =>
      let* js := wraps n idx in
      Ok (VArr (length idx :: sh) (rows_at (count sh) l js))
  | VRec (n :: sh) fs =>
      let* js := wraps n idx in
      Ok (VRec (length idx :: sh) (map (fun f => (fst f, (fst (snd f), rows_at (count sh * count (fst (snd f))) (snd (snd f)) js))) fs))
  | VArr [] _ | VRec [] _ => Err IndexError
  | VOther => Err TypeError
  end.

(** accessor.py:44-51.  A structured array refuses unknown fields with a
    ValueError. *)
Definition component (key : string) (v : value) : res value :=
  match v with
  | VRec sh fs => match dget fs key with
                  | Some (s, l) => Ok (VArr (sh ++ s) l)
                  | None => Err ValueError
                  end
  | VArr sh l => match find key "xyzw" with
                 | Some k => pick sh l k
                 | None => match find key "rgba" with
                           | Some k => pick sh l k
                           | None => Err IndexError
                           end
                 end
  | VOther => Err AttributeError
  end.
(** accessor.py:44-56.  [index] is what the variables hold under that name, if
    anything; [None] for the variables, the default of evaluate, has no keys. *)
Definition access (variables : option (option (list Z))) (key : string) (v : value) : res value :=
  let* a := component key v in
  match variables with
  | None => Err AttributeError
  | Some None => Ok a
  | Some (Some idx) => take a idx
  end.
(** Accessors one after the other, the innermost first: accessor.py:37-38. *)
Fixpoint accesses (variables : option (option (list Z))) (keys : list string) (v : value) : res value :=
  match keys with
  | [] => Ok v
  | k :: keys' => let* a := access variables k v in accesses variables keys' a
  end.

(** Python's [str.split(".")]. out.py:57-58. *)
Fixpoint split_dots (s : string) : list string :=
  match s with
  | EmptyString => [EmptyString]
  | String c t => if Ascii.eqb c "." then EmptyString :: split_dots t
                  else match split_dots t with x :: r => String c x :: r | [] => [String c EmptyString] end
  end.
(** [swizzle.index(c)], out.py:61. *)
Fixpoint index_char (c : ascii) (t : string) : option nat :=
  match t with
  | EmptyString => None
  | String d t' => if Ascii.eqb c d then Some 0 else match index_char c t' with Some i => Some (S i) | None => None end
  end.
(** [set(key).issubset(set(swizzle))] and the list of indices, out.py:60-62. *)
Fixpoint letters (swizzle key : string) : option (list nat) :=
  match key with
  | EmptyString => Some []
  | String c k => match index_char c swizzle, letters swizzle k with Some i, Some r => Some (i :: r) | _, _ => None end
  end.
(** Out.evaluate, out.py:46-74; the variables a visual produces are arrays of
    numbers.  When the key is made of neither alphabet, [index] is never assigned. *)
Definition out (variables : dict string (list nat * list Qc)) (name : string) : res value :=
  let parts := split_dots name in
  let dotted := 1 <? length parts in
  let base := if dotted then hd EmptyString parts else name in
  let key := last parts EmptyString in
  match dget variables base with
  | None => Err ValueError
  | Some (sh, l) =>
      if dotted then
        match (match letters "xyzw" key with Some l => Some l | None => letters "rgba" key end) with
        | None => Err UnboundLocalError
        | Some ks => pick_all sh l ks
        end
      else Ok (VArr sh l)
  end.

Section Colormap.
  (** Colours, and the colour maps of matplotlib by name ([None]: the default
      one), as functions of a normalised value. *)
  Context {color : Type} (get_cmap : option string -> res (Qc -> color)).
  (** The colormap and its limits, colormap.py:37-39. *)
  Record cmap := mkCmap { k_name : option string; k_vmin : option Qc; k_vmax : option Qc }.
  (** set_colormap, colormap.py:41-55. *)
  Definition set_colormap (c : cmap) (name : string) : cmap := c.
  (** [x or default()], colormap.py:82-83. *)
  Definition or_else (x : option Qc) (default : res Qc) : res Qc :=
    match x with
    | Some v => if Qc_eq_bool v 0 then default else Ok v
    | None => default
    end.
  (** Comparison of numbers, colormap.py:82-83. *)
  Definition qle (a b : Qc) : bool := Qle_bool (this a) (this b).
  (** value.min() and value.max(); of no values a ValueError. colormap.py:82. *)
  Definition least (l : list Qc) : res Qc :=
    match l with [] => Err ValueError | x :: r => Ok (fold_left (fun a b => if qle a b then a else b) r x) end.
  (** value.max(), colormap.py:83. *)
  Definition greatest (l : list Qc) : res Qc :=
    match l with [] => Err ValueError | x :: r => Ok (fold_left (fun a b => if qle a b then b else a) r x) end.
  (** matplotlib's Normalize: a ValueError if vmin is above vmax, 0 if they are
      equal; no clipping. colormap.py:82-84. *)
  Definition normalize (vmin vmax : Qc) (v : Qc) : Qc := if Qc_eq_bool vmin vmax then 0%Qc else ((v - vmin) / (vmax - vmin))%Qc.
  (** Colormap.evaluate, colormap.py:69-84, on an array. *)
  Definition colors (c : cmap) (l : list Qc) : res (list color) :=
    let* f := get_cmap (k_name c) in
    let* vmin := or_else (k_vmin c) (least l) in
    let* vmax := or_else (k_vmax c) (greatest l) in
    if qle vmin vmax then Ok (map (fun v => f (normalize vmin vmax v)) l) else Err ValueError.
End Colormap.
