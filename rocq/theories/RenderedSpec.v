(** Vocabulary for whole pictures in floating point. *)
From Coq Require Import Reals List ZArith.
From Verif Require Import Base Viewport Glm GlmSpec Render RenderSpec PictureSpec SingleSpec.
Import ListNotations.
Local Open Scope R_scope.

(** Both pixels are there, and at most [e] apart in each direction. *)
Definition beside (e : R) (a b : option (R * R)) : Prop :=
  exists x y x' y', a = Some (x, y) /\ b = Some (x', y') /\ Rabs (x - x') <= e /\ Rabs (y - y') <= e.
(** The picture has one item for each of [order], with the attributes [own] gives, beside where
    [exact] puts its vertex. *)
Definition drawn_beside (e : R) (exact : vec3 -> option (R * R)) (own : nat -> list (option (list Z))) (ps : list vec3) (order : list nat)
    (out : list (option (R * R) * list (option (list Z)))) : Prop :=
  Forall2 (fun j item => exists p, nth_error ps j = Some p /\ beside e (fst item) (exact p) /\ snd item = own j) order out.
(** What is drawn later is not farther by [e], given the distance of each vertex; or not nearer. *)
Definition covers_but (e : R) (far : vec3 -> R) (ps : list vec3) (order : list nat) : Prop :=
  forall i j a b p q, (i < j)%nat -> nth_error order i = Some a -> nth_error order j = Some b ->
    nth_error ps a = Some p -> nth_error ps b = Some q -> far q < far p + e.
