(** Vocabulary for points coloured by their depth. *)
From Coq Require Import Reals.
From Verif Require Import Base Measure Viewport Camera Glm GlmSpec Vec Render Trackball Picture PictureSpec Live LiveSpec.
Local Open Scope R_scope.

(** How far each of the points is, all being in front of the eye. *)
Definition distances (model view : mat) (ps : list vec3) : list R := map (fun p => - z4 (eye model view p)) ps.
Definition in_front (model view : mat) (ps : list vec3) : Prop := Forall (fun p => z4 (eye model view p) < 0) ps.
(** The nearest and the farthest of some distances. *)
Definition nearest (ds : list R) (d : R) : Prop := In d ds /\ forall e, In e ds -> d <= e.
Definition farthest (ds : list R) (d : R) : Prop := In d ds /\ forall e, In e ds -> e <= d.
(** The place in the colour map of something at distance [d]: 0 for the farthest, 1 for the
    nearest, and in between the inverses of distances are spread evenly. *)
Definition level (near far d : R) : R := (/ d - / far) / (/ near - / far).
(** Without perspective the distances themselves are. *)
Definition flat_level (near far d : R) : R := (far - d) / (far - near).
(** Distances at which nothing is nearer than something else. *)
Definition all_alike (ds : list R) : Prop := forall d e, In d ds -> In e ds -> d = e.
(** How far from the left (for 0) or from the bottom (for 1) a place on the canvas is. *)
Definition across (k : nat) (p : option (R * R)) : R := match p with Some (a, b) => if Nat.eqb k 0 then a else b | None => 0 end.

(** Every point once, by decreasing distance, where it belongs, its colour that of [shade] for its distance. *)
Definition shown_shaded (v : Viewport.viewport) (model view proj : mat) (ps : list vec3) (shade : R -> list Z) (edge width size : attr) (out : list item) : Prop :=
  exists order, RenderSpec.visits (length ps) order /\
    covers (depth_in (fun p => Some (- z4 (eye model view p))) ps) order /\
    map Some (picture v out) = map (fun j => option_map (fun p => ([spot v (clip model view proj p)],
      [Some (shade (- z4 (eye model view p))); RenderSpec.own edge j; RenderSpec.own width j; RenderSpec.own size j])) (nth_error ps j)) order.
