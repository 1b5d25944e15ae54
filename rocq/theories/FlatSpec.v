(** Vocabulary for the flat camera in floating point. *)
From Coq Require Import Reals List ZArith.
From Verif Require Import Base Glm Viewport PictureSpec Drift.
Local Open Scope R_scope.

(** A vertex whose coordinates are numbers of single precision, as those of a buffer of vec3 are. *)
Definition single_vertex (p : vec3) : Prop := x3 p = rnd32 (x3 p) /\ y3 p = rnd32 (y3 p) /\ z3 p = rnd32 (z3 p).
(** As many units from the middle of the viewport as its first two coordinates say. *)
Definition upright_spot (v : Viewport.viewport) (p : vec3) : option (R * R) :=
  Some (fst (middle v) + unit_x v * x3 p, snd (middle v) + unit_y v * y3 p).
(** The picture has one item for each of [order], with the attributes [own] gives, exactly where
    [exact] puts its vertex. *)
Definition drawn_at (exact : vec3 -> option (R * R)) (own : nat -> list (option (list Z))) (ps : list vec3) (order : list nat)
    (out : list (option (R * R) * list (option (list Z)))) : Prop :=
  Forall2 (fun j item => exists p, nth_error ps j = Some p /\ fst item = exact p /\ snd item = own j) order out.
(** The same for things with several corners, each of them exactly in its place. *)
Definition joined_at (exact : vec3 -> option (R * R)) (own : nat -> list (option (list Z))) (gs : list (list vec3)) (order : list nat)
    (out : list (list (option (R * R)) * list (option (list Z)))) : Prop :=
  Forall2 (fun j item => exists g, nth_error gs j = Some g /\ fst item = map exact g /\ snd item = own j) order out.
(** And for vertices with shapes. *)
Definition shaped_at {S} (exact : vec3 -> option (R * R)) (own : nat -> list (option (list Z))) (shapes : list S) (ps : list vec3) (order : list nat)
    (out : list ((S * option (R * R)) * list (option (list Z)))) : Prop :=
  Forall2 (fun j item => exists p s a, nth_error ps j = Some p /\ nth_error shapes j = Some s /\ fst item = (s, a) /\ a = exact p /\ snd item = own j) order out.
