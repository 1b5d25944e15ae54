(** What accessors, output variables and colour maps should give. *)
From Verif Require Import Base Stage.
Local Open Scope list_scope.
Local Open Scope nat_scope.

(** An array holds as many numbers as its shape says. *)
Definition sound (v : value) : Prop :=
  match v with
  | VArr sh l => length l = count sh
  | VRec sh fs => Forall (fun f => length (snd (snd f)) = count sh * count (fst (snd f))) fs
  | VOther => True
  end.
(** [m] has component [k] of each group of [c] numbers of [l]. *)
Definition component_of (c k : nat) (l m : list Qc) : Prop :=
  length l = length m * c /\ forall i, i < length m -> nth_error m i = nth_error l (i * c + k).
(** [m] has components [ks], in that order, of each group of [c] numbers of [l]. *)
Definition components_of (c : nat) (ks : list nat) (l m : list Qc) : Prop :=
  exists n, length l = n * c /\ length m = n * length ks /\
    forall i j k, i < n -> nth_error ks j = Some k -> nth_error m (i * length ks + j) = nth_error l (i * c + k).
(** Rows of [size] numbers: row [j] of [m] is row [nth j idx] of [l]. *)
Definition row (size i : nat) (l : list Qc) : list Qc := firstn size (skipn (i * size) l).
Definition rows_of (size : nat) (idx : list nat) (l m : list Qc) : Prop :=
  length m = length idx * size /\ forall j i, nth_error idx j = Some i -> row size j m = row size i l.
(** The four letters of each alphabet. *)
Definition stands_for (letter : string) (k : nat) : Prop :=
  nth_error ["x"; "y"; "z"; "w"]%string k = Some letter \/ nth_error ["r"; "g"; "b"; "a"]%string k = Some letter.
(** All the letters of a key are of one alphabet. *)
Definition spells (alphabet : string) (key : string) (ks : list nat) : Prop :=
  Forall2 (fun c k => String.get k alphabet = Some c) (list_ascii_of_string key) ks.

(** The bounds of the scale. *)
Definition least_of (l : list Qc) (x : Qc) : Prop := In x l /\ forall v, In v l -> (x <= v)%Qc.
Definition greatest_of (l : list Qc) (x : Qc) : Prop := In x l /\ forall v, In v l -> (v <= x)%Qc.
(** The given bound, unless there is none or it is 0. *)
Definition bound (given : option Qc) (otherwise : Qc -> Prop) (x : Qc) : Prop :=
  match given with Some g => (g <> 0%Qc /\ x = g) \/ (g = 0%Qc /\ otherwise x) | None => otherwise x end.
(** Where [v] lies between the bounds. *)
Definition place (lo hi v x : Qc) : Prop := (lo = hi -> x = 0%Qc) /\ (lo <> hi -> (x * (hi - lo) = v - lo)%Qc).
