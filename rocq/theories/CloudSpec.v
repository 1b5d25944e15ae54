(** Vocabulary for the properties of clouds of points. *)
From Coq Require Import QArith Qcanon.
From Verif Require Import Base Cloud.
Local Open Scope nat_scope.

(** Within the bounds that are given. *)
Definition within (b : bounds) (p : pt) : Prop :=
  forall a, (forall q, lo b a = Some q -> (q < coord a p)%Qc) /\ (forall q, hi b a = Some q -> (coord a p < q)%Qc).
(** Where a bound is not given: not among the extreme points of the cloud. *)
Definition inner (b : bounds) (ps : list pt) (p : pt) : Prop :=
  forall a, (lo b a = None -> exists p', In p' ps /\ (coord a p' < coord a p)%Qc) /\ (hi b a = None -> exists p', In p' ps /\ (coord a p < coord a p')%Qc).
(** Some of a list, in order. *)
Inductive kept {A} (P : A -> Prop) : list A -> list A -> Prop :=
| kept_nil : kept P [] []
| kept_yes x l r : P x -> kept P l r -> kept P (x :: l) (x :: r)
| kept_no x l r : ~ P x -> kept P l r -> kept P (x :: l) r.
Definition all_given (b : bounds) : Prop := forall a, lo b a <> None /\ hi b a <> None.
(** np.random.choice without replacement. *)
Definition chooses (choose : nat -> nat -> list nat) : Prop :=
  forall n k, k <= n -> length (choose n k) = k /\ NoDup (choose n k) /\ forall i, In i (choose n k) -> i < n.
(** For the examples. *)
Definition qc (n : BinInt.Z) : Qc := Q2Qc (n # 1).
