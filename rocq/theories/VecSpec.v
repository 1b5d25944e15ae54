(** What the conversions between vectors are documented to do. *)
From Coq Require Import Reals.
From Verif Require Import Base Glm GlmSpec Vec.
Local Open Scope R_scope.

(** Documented conventions, vec234.py:37-40, 224-227, 368-371. *)
Inductive as2 : list R -> list R -> Prop :=
| as2_2 x y : as2 [x; y] [x; y]
| as2_3 x y z : as2 [x; y; z] [x; y]
| as2_4 x y z w : w <> 0 -> as2 [x; y; z; w] [x / w; y / w].
Inductive as3 : list R -> list R -> Prop :=
| as3_2 x y : as3 [x; y] [x; y; 0]
| as3_3 x y z : as3 [x; y; z] [x; y; z]
| as3_4 x y z w : w <> 0 -> as3 [x; y; z; w] [x / w; y / w; z / w].
Inductive as4 : list R -> list R -> Prop :=
| as4_2 x y : as4 [x; y] [x; y; 0; 1]
| as4_3 x y z : as4 [x; y; z] [x; y; z; 1]
| as4_4 x y z w : as4 [x; y; z; w] [x; y; z; w].

(** How a real number is kept in an array: as it is, or without its fraction. *)
Definition kept (k : kind) (x y : R) : Prop :=
  match k with
  | KFloat => y = x
  | KInt => (exists n, y = IZR n) /\ Rabs y <= Rabs x < Rabs y + 1 /\ 0 <= x * y
  end.

(** Each row goes to the row its convention says, kept in kind [k]. *)
Definition rows_as (k : kind) (conv : list R -> list R -> Prop) (l l' : list (list R)) : Prop :=
  Forall2 (fun r r' => exists q, conv r q /\ Forall2 (kept k) q r') l l'.

(** An array of finite numbers with [c] columns; the numbers suit its kind. *)
Definition table (k : kind) (c : nat) (l : list (list R)) : arr := mkA k (Rows c (map (map Num) l)).
Definition rectangular (c : nat) (l : list (list R)) : Prop := Forall (fun r => length r = c) l.
Definition suits (k : kind) (l : list (list R)) : Prop :=
  k = KInt -> Forall (Forall (fun x => exists n, x = IZR n)) l.
(** No homogeneous vector is at infinity. *)
Definition finite_w (c : nat) (l : list (list R)) : Prop := c = 4%nat -> Forall (fun r => nth 3 r 0 <> 0) l.

(** The shapes that can be converted to vectors of [n] components. *)
Definition convertible (n : nat) (d : data) : Prop :=
  match d with
  | Flat l => exists m, length l = (m * n)%nat
  | Rows c _ => c = 2%nat \/ c = 3%nat \/ c = 4%nat
  | Other _ _ => False
  end.

Definition triple (r : list R) (p : vec3) : Prop := r = [x3 p; y3 p; z3 p].
