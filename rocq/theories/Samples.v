(** The scenes of the example programs: examples/paths-regular-2d.py,
    examples/polygons-2d.py, examples/points-2d.py, examples/markers-2d.py,
    examples/markers-3d.py, examples/segments-2d.py, examples/paths-2d.py and
    examples/paths-3d.py.

    Simplifications: real numbers for floats; the sizes written in the programs ([n]) are
    parameters. *)
From Coq Require Import Reals.
From Verif Require Import Base Glm.
From Verif Require Swizzle.
Open Scope R_scope.

(** [np.linspace(a, b, n)], examples/points-2d.py:27-28.  For one number it is [a]. *)
Definition linspace (a b : R) (n : nat) : list R := map (fun i => a + INR i * ((b - a) / INR (n - 1))) (seq 0 n).
(** [np.linspace(0, b, n, endpoint=False)], examples/polygons-2d.py:33. *)
Definition linspace_open (b : R) (n : nat) : list R := map (fun i => INR i * (b / INR n)) (seq 0 n).

(** [P[index] = p], examples/polygons-2d.py:34. *)
Fixpoint put (P : list vec3) (index : nat) (p : vec3) : res (list vec3) :=
  match P, index with
  | [], _ => Err IndexError
  | _ :: l, O => Ok (p :: l)
  | q :: l, S i => let* l := put l i p in Ok (q :: l)
  end.
(** The loop over the angles, examples/polygons-2d.py:33-35. *)
Fixpoint corners (radius ox oy : R) (P : list vec3) (index : nat) (thetas : list R) : res (list vec3 * nat) :=
  match thetas with
  | [] => Ok (P, index)
  | a :: l =>
      let* P := put P index (V3 (ox + radius * cos a) (oy + radius * sin a) 0) in
      corners radius ox oy P (index + 1) l
  end.
(** The loop over the columns, examples/polygons-2d.py:32-36; [n]: the corners of the next
    polygon. *)
Fixpoint columns (radius oy : R) (P : list vec3) (index n : nat) (OX : list R) : res (list vec3 * nat * nat) :=
  match OX with
  | [] => Ok (P, index, n)
  | ox :: l =>
      let* r := corners radius ox oy P index (linspace_open (2 * PI) n) in
      columns radius oy (fst r) (snd r) (n + 1) l
  end.
(** The loop over the rows, examples/polygons-2d.py:31-36. *)
Fixpoint lines (radius : R) (OX : list R) (P : list vec3) (index n : nat) (OY : list R) : res (list vec3 * nat * nat) :=
  match OY with
  | [] => Ok (P, index, n)
  | oy :: l =>
      let* r := columns radius oy P index n OX in
      lines radius OX (fst (fst r)) (snd (fst r)) (snd r) l
  end.
(** The positions and the sizes of the polygons: examples/polygons-2d.py:24-36 and
    examples/paths-regular-2d.py:27-39 (n = 3 there). *)
Definition regular (n : nat) : res (list vec3 * list nat) :=
  if (n =? 0)%nat then Err ZeroDivisionError
  else
    let radius := 0.85 * (1 / INR n) in
    let OX := linspace (-1 + 1 / INR n) (1 - 1 / INR n) n in
    let OY := linspace (1 - 1 / INR n) (-1 + 1 / INR n) n in
    let I := seq 3 (n * n) in
    let P := repeat (V3 0 0 0) (fold_right Nat.add 0%nat I) in
    match I with
    | [] => Err IndexError
    | first :: _ => let* r := lines radius OX P 0 first OY in Ok (fst (fst r), I)
    end.

(** Two lists multiplied, added: examples/points-2d.py:29. *)
Definition zip {A B C} (f : A -> B -> C) (l : list A) (m : list B) : list C := map (fun ab => f (fst ab) (snd ab)) (combine l m).
(** The spiral, examples/points-2d.py:24-29 and examples/markers-2d.py:25-30 (n = 600).  That
    the assignment to P.xy gives this is C118_assigned. *)
Definition spiral (n : nat) : list vec3 :=
  zip (fun r t => V3 (r * cos t) (r * sin t) 0) (linspace 0.05 0.95 n) (linspace 0 (10.125 * 2 * PI) n).
(** The value assigned to P.xy, two rows of n numbers: examples/points-2d.py:29.  Indices out of
    range do not occur. *)
Definition spiral_columns (n : nat) : Swizzle.arr R :=
  let R := linspace 0.05 0.95 n in
  let T := linspace 0 (10.125 * 2 * PI) n in
  Swizzle.mkArr [2%nat; n] (fun ji =>
    match ji with
    | [O; i] => nth i (zip (fun r t => r * cos t) R T) 0
    | [S O; i] => nth i (zip (fun r t => r * sin t) R T) 0
    | _ => 0
    end).
(** The sizes of the points, examples/points-2d.py:31-32. *)
Definition spiral_sizes (n : nat) : list R := map (fun x => x * x) (linspace 0.05 12 n).
(** The angles of the markers in degrees, examples/markers-2d.py:29 and 33. *)
Definition spiral_angles (n : nat) : list R := map (fun t => 180 * t / PI) (linspace 0 (10.125 * 2 * PI) n).

(** The sphere, examples/markers-3d.py:27-32 (n = 256); 1/n with no points is not
    computed. *)
Definition sphere (n : nat) : list vec3 :=
  zip (fun t z => V3 (sqrt (1 - z * z) * sin t) (sqrt (1 - z * z) * cos t) z)
      (map (fun i => PI * (3 - sqrt 5) * INR i) (seq 0 n)) (linspace (1 - 1 / INR n) (1 / INR n - 1) n).

(** The segments, two positions each: examples/segments-2d.py:25-29 (n = 50). *)
Definition slanted (n : nat) : list vec3 := flat_map (fun x => [V3 x (-0.5) 0; V3 (x + 0.1) 0.5 0]) (linspace (-0.75) 0.75 n).

(** The curve, examples/paths-2d.py:26-31 (n = 256). *)
Definition curve (n : nat) : list vec3 := map (fun t => V3 (0.9 * sin t) (0.9 * cos (1.6 * t)) 0) (linspace (-7.4) (-0.5) n).
(** [np.repeat(np.arange(n), 2)], examples/paths-2d.py:33. *)
Definition twice (n : nat) : list nat := flat_map (fun i => [i; i]) (seq 0 n).
(** [l.reshape(-1, 2)], examples/paths-2d.py:33. *)
Fixpoint by_two (l : list nat) : res (list (list nat)) :=
  match l with
  | [] => Ok []
  | [_] => Err ValueError
  | a :: b :: l' => let* r := by_two l' in Ok ([a; b] :: r)
  end.
(** The indices of its parts: [...[1:-1].reshape(-1,2)], examples/paths-2d.py:33. *)
Definition curve_parts (n : nat) : res (list (list nat)) := by_two (removelast (tl (twice n))).

(** The cube and its edges, examples/paths-3d.py:26-33. *)
Definition cube : list vec3 :=
  [V3 (-1) (-1) 1; V3 1 (-1) 1; V3 (-1) 1 1; V3 1 1 1; V3 (-1) (-1) (-1); V3 1 (-1) (-1); V3 (-1) 1 (-1); V3 1 1 (-1)].
(** See above: examples/paths-3d.py:31-33. *)
Definition cube_edges : list (list nat) :=
  [[0; 1]; [1; 3]; [3; 2]; [2; 0]; [4; 5]; [5; 7]; [7; 6]; [6; 4]; [0; 4]; [1; 5]; [2; 6]; [3; 7]]%nat.
