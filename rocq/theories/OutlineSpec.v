(** Vocabulary for what covers what among things with several corners. *)
From Coq Require Import Reals.
From Verif Require Import Base Measure Viewport Glm Vec Render Picture PictureSpec Outline.
Local Open Scope R_scope.

(** All of one thing is nearer than all of another; [z] is the depth of a vertex. *)
Definition nearer (z : vec3 -> option R) (g h : list vec3) : Prop :=
  g <> [] /\ h <> [] /\ forall p q, In p g -> In q h -> exists x y, z p = Some x /\ z q = Some y /\ x < y.
(** What is all nearer than something else is not drawn before it. *)
Definition covers_whole (z : vec3 -> option R) (gs : list (list vec3)) (order : list nat) : Prop :=
  forall i j a b g h, (i < j)%nat -> nth_error order i = Some a -> nth_error order j = Some b ->
    nth_error gs a = Some g -> nth_error gs b = Some h -> ~ nearer z g h.
(** The mean depth of a thing, all of whose vertices have one. *)
Fixpoint depths (z : vec3 -> option R) (g : list vec3) : option (list R) :=
  match g with
  | [] => Some []
  | p :: r => match z p, depths z r with Some x, Some l => Some (x :: l) | _, _ => None end
  end.
Definition mean_depth (z : vec3 -> option R) (g : list vec3) : option R :=
  match depths z g with
  | Some (x :: l) => Some (fold_right Rplus 0 (x :: l) / INR (length (x :: l)))
  | _ => None
  end.
Definition mean_in (z : vec3 -> option R) (gs : list (list vec3)) (j : nat) : option R :=
  match nth_error gs j with Some g => mean_depth z g | None => None end.
(** Vertices two by two. *)
Definition in_pairs (gs : list (list vec3)) (ps : list vec3) : Prop := concat gs = ps /\ Forall (fun g => length g = 2%nat) gs.
(** A point on the straight line between two. *)
Definition between (t : R) (p q : vec3) : vec3 :=
  V3 ((1 - t) * x3 p + t * x3 q) ((1 - t) * y3 p + t * y3 q) ((1 - t) * z3 p + t * z3 q).
