(** Vocabulary for pictures of things with several corners, in floating point. *)
From Coq Require Import Reals List ZArith.
From Verif Require Import Base Viewport Glm GlmSpec Render RenderSpec PictureSpec SingleSpec RenderedSpec.
Import ListNotations.
Local Open Scope R_scope.

(** The picture has one item for each of [order], with the attributes [own] gives, each of its
    corners beside where [exact] puts that vertex. *)
Definition joined_beside (e : R) (exact : vec3 -> option (R * R)) (own : nat -> list (option (list Z))) (gs : list (list vec3)) (order : list nat)
    (out : list (list (option (R * R)) * list (option (list Z)))) : Prop :=
  Forall2 (fun j item => exists g, nth_error gs j = Some g /\ Forall2 (fun p a => beside e a (exact p)) g (fst item) /\ snd item = own j) order out.
(** How much farther a thing has to be for its place in the order to be sure: a thousandth, and a
    hundred thousandth for each vertex that is averaged. *)
Definition margin {A} (g h : list A) : R := / 1000 + INR (length g + length h) / 10 ^ 5.
(** All of [h] is farther than all of [g] by that. *)
Definition farther (far : vec3 -> R) (g h : list vec3) : Prop :=
  g <> [] /\ h <> [] /\ forall p q, In p g -> In q h -> far p + margin g h <= far q.
(** What is drawn later is not farther. *)
Definition joined_covers (far : vec3 -> R) (gs : list (list vec3)) (order : list nat) : Prop :=
  forall i j a b g h, (i < j)%nat -> nth_error order i = Some a -> nth_error order j = Some b ->
    nth_error gs a = Some g -> nth_error gs b = Some h -> ~ farther far g h.
(** The same as [drawn_beside], each item with its own shape. *)
Definition shaped_beside {S} (e : R) (exact : vec3 -> option (R * R)) (own : nat -> list (option (list Z))) (shapes : list S) (ps : list vec3) (order : list nat)
    (out : list ((S * option (R * R)) * list (option (list Z)))) : Prop :=
  Forall2 (fun j item => exists p s a, nth_error ps j = Some p /\ nth_error shapes j = Some s /\ fst item = (s, a) /\ beside e a (exact p) /\ snd item = own j) order out.
