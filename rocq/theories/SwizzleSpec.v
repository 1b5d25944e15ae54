(** Vocabulary for the properties of swizzles. *)
From Verif Require Import Base Swizzle.

(** Indices of an array of shape [s]. *)
Definition in_shape (s i : list nat) : Prop := Forall2 lt i s.

(** Letters of the components, in order: coordinates, or colours (the vectors
    with two components take them for a luminance and an opacity). *)
Definition letters (n : nat) : list (list ascii) :=
  match n with
  | 2 => [["x"; "y"]; ["r"; "a"]]
  | 3 => [["x"; "y"; "z"]; ["r"; "g"; "b"]]
  | 4 => [["x"; "y"; "z"; "w"]; ["r"; "g"; "b"; "a"]]
  | _ => []
  end%char%list.

(** The letters of [key] name, in order, the components [l] of an [n]-component
    vector, all in the same alphabet. *)
Definition names (n : nat) (key : list ascii) (l : list nat) : Prop :=
  exists s, In s (letters n) /\ Forall2 (fun c k => nth_error s k = Some c) key l.

(** [v'] is [v] with component [l_j] of every element [i] set to [f i j]. *)
Definition sets_exactly {A} (v v' : vecs A) (l : list nat) (f : list nat -> nat -> A) : Prop :=
  lead v' = lead v /\ ncomp v' = ncomp v /\
  forall i, in_shape (lead v) i ->
    (forall j k, nth_error l j = Some k -> comp v' i k = f i j) /\
    (forall c, ~ In c l -> comp v' i c = comp v i c).

(** [r] shows component [l_j] of [v] at place [j]. *)
Definition shows_components {A} (v r : vecs A) (l : list nat) : Prop :=
  lead r = lead v /\ ncomp r = length l /\
  forall i j k, nth_error l j = Some k -> comp r i j = comp v i k.

(** A vector array of one of the classes: 2, 3 or 4 components. *)
Definition vector {A} (v : vecs A) : Prop := 2 <= ncomp v <= 4.
