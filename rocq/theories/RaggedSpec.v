(** Specification vocabulary for ragged arrays: a ragged array is a list of
    lists. *)
From Verif Require Import Base Slice Ragged.
Local Open Scope Z_scope.

Section Spec.
  Context {A : Type}.

  (** What a user can see of [r] is the list of lists [items]: its length, its
      item sizes, its flat data, and every item, from the front and from the
      back; indices outside raise IndexError. *)
  Definition shows (r : ragged A) (items : list (list A)) : Prop :=
    rlen r = Z.of_nat (length items) /\
    itemsizes r = map (fun x => Z.of_nat (length x)) items /\
    rdata r = concat items /\
    (forall i x, nth_error items i = Some x ->
       get r (KInt (Z.of_nat i)) = Ok x /\ get r (KInt (Z.of_nat i - Z.of_nat (length items))) = Ok x) /\
    (forall i, (i < - Z.of_nat (length items) \/ Z.of_nat (length items) <= i) -> get r (KInt i) = Err IndexError).

  (** Ragged arrays a program can hold: built with non-negative sizes, then
      written to. *)
  Definition good_sizes (s : @isize) : Prop :=
    match s with ISeq _ l => forall z, In z l -> 0 <= z | _ => True end.
  Inductive reachable : ragged A -> Prop :=
  | r_init d s r : good_sizes s -> init d s = Ok r -> reachable r
  | r_set r k v r' : reachable r -> set r k v = Ok r' -> reachable r'.

  (** The values an item of size [n] receives. *)
  Inductive spread (n : nat) : aval A -> list A -> Prop :=
  | s_one x : spread n (AOne x) (repeat x n)
  | s_many l : length l = n -> spread n (AMany l) l
  | s_single x : spread n (AMany [x]) (repeat x n).
  (** The index [p] names item [i]. *)
  Definition names (items : list (list A)) (p : Z) (i : nat) : Prop := p = Z.of_nat i \/ p = Z.of_nat i - Z.of_nat (length items).
End Spec.
