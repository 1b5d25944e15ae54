(** Vocabulary for the properties of measures. *)
From Verif Require Import Base Measure.
Local Open Scope Qc_scope.

(** A value times a number. *)
Definition times (a : Qc) (x : mval) : mval := mmap (Qcmult a) x.
(** The sum of two values of the same shape. *)
Fixpoint addrow (r s : list Qc) : list Qc :=
  match r, s with a :: r', b :: s' => (a + b) :: addrow r' s' | _, _ => [] end.
Fixpoint addrows (r s : list (list Qc)) : list (list Qc) :=
  match r, s with a :: r', b :: s' => addrow a b :: addrows r' s' | _, _ => [] end.
Definition plus (x y : mval) : mval :=
  match x, y with
  | Num a, Num b => Num (a + b)
  | Arr w r, Arr _ s => Arr w (addrows r s)
  | _, _ => x
  end.
Definition same_shape (x y : mval) : Prop :=
  match x, y with
  | Num _, Num _ => True
  | Arr w r, Arr w' s => w = w' /\ Forall2 (fun a b => length a = length b) r s
  | _, _ => False
  end.
(** How many centimetres a unit of length is. *)
Definition centimetres (u : unit_of) : option Qc :=
  match u with
  | Pixel => None
  | Inch => Some (q 254 100)
  | Point => Some (q 254 100 / q 72 1)
  | Centimeter => Some 1
  | Millimeter => Some (q 1 10)
  | Meter => Some (q 100 1)
  | Kilometer => Some (q 100000 1)
  end.
