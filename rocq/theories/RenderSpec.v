(** Vocabulary for the properties of rendering. *)
From Coq Require Import QArith Permutation.
From Verif Require Import Base Render.
Local Open Scope nat_scope.

(** Depths in increasing order; NaN comes last. *)
Definition deeper (a b : option Q) : Prop :=
  match a, b with _, None => True | None, Some _ => False | Some x, Some y => (x <= y)%Q end.
(** What numpy promises of argsort (not stable): a permutation of the indices
    that puts the keys in order. *)
Definition sorts (argsort : list (option Q) -> list nat) : Prop :=
  forall l, Permutation (argsort l) (seq 0 (length l)) /\
    forall i j a b x y, i < j -> nth_error (argsort l) i = Some a -> nth_error (argsort l) j = Some b ->
      nth_error l a = Some x -> nth_error l b = Some y -> deeper x y.

(** The average of some numbers, if any: the number which, taken as many times,
    gives the same sum. *)
Definition average (l : list Q) (a : option Q) : Prop :=
  match a with
  | None => l = []
  | Some x => l <> [] /\ (x * inject_Z (Z.of_nat (length l)) == fold_right Qplus 0 l)%Q
  end.

(** The value item [j] is meant to have. *)
Definition own (a : attr) (j : nat) : option (list Z) :=
  match a with
  | Rows [x] => Some x
  | Rows l => nth_error l j
  | Row l => Some l
  | Whole z => Some [z]
  end.
(** One value per item or one value for all [n] items. *)
Definition fits (n : nat) (a : attr) : Prop :=
  match a with Rows l => length l = n \/ length l = 1 | _ => True end.
(** A single value is not mistaken for one value per item. *)
Definition clear (n : nat) (a : attr) : Prop :=
  match a with Row l => length l <> n | _ => True end.
(** The same for one value per path, with [m] vertices. *)
Definition clear_path (n m : nat) (a : attr) : Prop :=
  match a with
  | Rows l => length l = n \/ length l <> m
  | Row l => length l <> n /\ length l <> m
  | Whole _ => True
  end.
Definition fits_size (n : nat) (a : attr) : Prop :=
  match a with Rows l => length l = n | Row _ => False | Whole _ => True end.

(** [order] visits every one of [n] items exactly once. *)
Definition visits (n : nat) (order : list nat) : Prop := Permutation order (seq 0 n).
(** Items are drawn by decreasing (increasing) depth. *)
Definition far_first (z : nat -> option Q) (order : list nat) : Prop :=
  forall i j a b x y, i < j -> nth_error order i = Some a -> nth_error order j = Some b ->
    z a = Some x -> z b = Some y -> (y <= x)%Q.
Definition near_first (z : nat -> option Q) (order : list nat) : Prop :=
  forall i j a b x y, i < j -> nth_error order i = Some a -> nth_error order j = Some b ->
    z a = Some x -> z b = Some y -> (x <= y)%Q.

(** The list [l] cut in consecutive groups of the given sizes. *)
Fixpoint cut {A} (l : list A) (sizes : list nat) : list (list A) :=
  match sizes with [] => [] | s :: r => firstn s l :: cut (skipn s l) r end.
Definition total (sizes : list nat) : nat := fold_right Nat.add 0 sizes.
(** The indices of consecutive groups of the given sizes. *)
Fixpoint index_groups (start : nat) (sizes : list nat) : list (list Z) :=
  match sizes with [] => [] | s :: r => map Z.of_nat (seq start s) :: index_groups (start + s) r end.

(** A history of renders, whatever each raises. *)
Fixpoint renders {T} (flag : option T) (h : list steps) : option T :=
  match h with [] => flag | s :: r => renders (fst (render_flag flag s)) r end.
(** A render that fails after it started drawing. *)
Definition fails_inside (s : steps) : Prop :=
  is_ok (s_base s) = true /\ (is_ok (s_create s) = false \/ (s_transform s = true /\ is_ok (s_rest s) = false)).
