(** Meshes: faces are lists of numbers of vertices. *)
From Coq Require Import Reals.
From Verif Require Import Base Glm.
Local Open Scope R_scope.

(** Every index names a vertex. *)
Definition valid_mesh (V : list vec3) (F : list (list nat)) : Prop :=
  Forall (fun f => (3 <= length f)%nat /\ NoDup f /\ Forall (fun i => (i < length V)%nat) f) F.

(** Edges of a face, in the direction the face goes round. *)
Definition edges_of (f : list nat) : list (nat * nat) := combine f (tl f ++ [hd 0%nat f])%list.
Definition edges (F : list (list nat)) : list (nat * nat) := flat_map edges_of F.
Definition flip (e : nat * nat) : nat * nat := (snd e, fst e).
Definition same_edge (a b : nat * nat) : bool := ((fst a =? fst b) && (snd a =? snd b))%nat.
Definition times_in (e : nat * nat) (l : list (nat * nat)) : nat := length (filter (same_edge e) l).

(** Every edge belongs to exactly two faces. *)
Definition closed (F : list (list nat)) : Prop :=
  Forall (fun e => (times_in e (edges F) + times_in (flip e) (edges F) = 2)%nat) (edges F).
(** Moreover the two go along it in opposite directions, so that all faces go
    round the same way. *)
Definition oriented (F : list (list nat)) : Prop :=
  Forall (fun e => times_in e (edges F) = 1%nat /\ times_in (flip e) (edges F) = 1%nat) (edges F).

(** Number of edges, each counted once. *)
Definition edge_count (F : list (list nat)) : nat :=
  length (nodup (fun a b : nat * nat => ltac:(repeat decide equality))
            (map (fun e => if fst e <=? snd e then e else flip e)%nat (edges F))).

Definition vertex (V : list vec3) (i : nat) : vec3 := nth i V (V3 0 0 0).
Definition dist2 (a b : vec3) : R := (x3 a - x3 b) ^ 2 + (y3 a - y3 b) ^ 2 + (z3 a - z3 b) ^ 2.
Definition triple_product (a b c : vec3) : R :=
  x3 a * (y3 b * z3 c - z3 b * y3 c) - y3 a * (x3 b * z3 c - z3 b * x3 c) + z3 a * (x3 b * y3 c - y3 b * x3 c).
(** Seen from outside (the origin is inside) the triangle goes round
    anticlockwise, clockwise. *)
Definition anticlockwise (V : list vec3) (f : list nat) : Prop :=
  0 < triple_product (vertex V (nth 0 f 0%nat)) (vertex V (nth 1 f 0%nat)) (vertex V (nth 2 f 0%nat)).
Definition clockwise (V : list vec3) (f : list nat) : Prop :=
  triple_product (vertex V (nth 0 f 0%nat)) (vertex V (nth 1 f 0%nat)) (vertex V (nth 2 f 0%nat)) < 0.

(** Four points in a plane. *)
Definition coplanar (a b c d : vec3) : Prop :=
  triple_product (sub3 b a) (sub3 c a) (sub3 d a) = 0.

(** Corner [i, j] of the grid of a sphere, and the corners of a cell. *)
Definition corner (slices i j : nat) : nat := (i * (slices + 1) + j)%nat.
Definition cell (slices i j : nat) : list nat :=
  [corner slices i j; corner slices i (j + 1); corner slices (i + 1) (j + 1); corner slices (i + 1) j].
(** The triangles that lie in a cell. *)
Definition inside_cell (slices i j : nat) (f : list nat) : bool :=
  forallb (fun v => existsb (Nat.eqb v) (cell slices i j)) f.

(** A pentagon and the three triangles it is cut into. *)
Definition fan (p : list nat) : list (list nat) :=
  match p with [a; b; c; d; e] => [[d; e; a]; [c; d; a]; [b; c; a]] | _ => [] end.
(** A flat pentagon with sides of squared length [s] and diagonals of squared
    length [t]. *)
Definition regular_pentagon (V : list vec3) (s t : R) (p : list nat) : Prop :=
  exists a b c d e, p = [a; b; c; d; e] /\
    let P := vertex V in
    coplanar (P a) (P b) (P c) (P d) /\ coplanar (P a) (P b) (P c) (P e) /\
    Forall (fun q => dist2 (P (fst q)) (P (snd q)) = s) [(a, b); (b, c); (c, d); (d, e); (e, a)] /\
    Forall (fun q => dist2 (P (fst q)) (P (snd q)) = t) [(a, c); (b, d); (c, e); (d, a); (e, b)].
