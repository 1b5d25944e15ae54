(** C38, C39, C40: rendering. *)
From Coq Require Import QArith.
From Verif Require Import Base Render RenderSpec RenderFacts.
Local Open Scope nat_scope.

(** C38: whatever sort numpy uses, every point is drawn once, far points first,
    each with its own attributes.  Missing: single values whose length is the
    number of points (refuted below). *)
Theorem C38_points_partial {XY} argsort (ps : list (XY * Q)) face edge width size : sorts argsort ->
  let n := length ps in
  fits n face -> clear n face -> fits n edge -> clear n edge -> fits n width -> clear n width -> fits_size n size ->
  exists order out, points argsort ps face edge width size = Ok out /\ visits n order /\
    far_first (fun j => option_map snd (nth_error ps j)) order /\
    map Some out = map (fun j => option_map (fun p => (fst p, [own face j; own edge j; own width j; own size j]))
                                            (nth_error ps j)) order.
Proof. exact (fun S => points_drawn argsort S ps face edge width size). Qed.
Print Assumptions C38_points_partial.
Theorem C38_markers_partial {XY S} argsort (ps : list (XY * Q)) (shapes : list S) face edge width size : sorts argsort ->
  let n := length ps in length shapes = n ->
  fits n face -> clear n face -> fits n edge -> clear n edge -> fits n width -> clear n width -> fits_size n size ->
  exists order out, markers argsort ps shapes face edge width size = Ok out /\ visits n order /\
    far_first (fun j => option_map snd (nth_error ps j)) order /\
    map Some out = map (fun j => match nth_error shapes j, nth_error ps j with
                                 | Some s, Some p => Some ((s, fst p), [own face j; own edge j; own width j; own size j])
                                 | _, _ => None end) order.
Proof. exact (fun A => markers_drawn argsort A ps shapes face edge width size). Qed.
Print Assumptions C38_markers_partial.
Theorem C38_segments_partial {XY} argsort (ps : list ((XY * Q) * (XY * Q))) edge width : sorts argsort ->
  let n := length ps in fits n edge -> clear n edge -> fits n width -> clear n width ->
  exists order, visits n order /\
    far_first (fun j => option_map (fun s => (snd (fst s) + snd (snd s)) / inject_Z 2)%Q (nth_error ps j)) order /\
    map Some (segments argsort ps edge width) =
      map (fun j => option_map (fun s => ((fst (fst s), fst (snd s)), [own edge j; own width j])) (nth_error ps j)) order.
Proof. exact (fun S => segments_drawn argsort S ps edge width). Qed.
Print Assumptions C38_segments_partial.
(** Paths and polygons: by the mean depth of their vertices. *)
Theorem C38_groups_partial {XY} argsort (ps : list (XY * Q)) i paths attrs : sorts argsort -> group ps i = Ok paths ->
  let n := length paths in
  Forall (fun a => fits n a /\ clear_path n (length ps) a) attrs ->
  exists order out, draw_groups argsort ps i attrs = Ok out /\ visits n order /\
    (exists depth, (forall j p, nth_error paths j = Some p -> average (map snd p) (depth j)) /\ far_first depth order) /\
    map Some out = map (fun j => option_map (fun p => (map fst p, map (fun a => own a j) attrs)) (nth_error paths j)) order.
Proof. exact (fun S => groups_drawn argsort S ps i paths attrs). Qed.
Print Assumptions C38_groups_partial.
Example C38_case : sorts ex_argsort /\
  fits 4 (Rows [[1]; [2]; [3]; [4]]%Z) /\ clear 4 (Row [1; 1; 0]%Z) /\ fits_size 4 (Whole 3) /\
  points ex_argsort ex_ps (Rows [[10]; [11]; [12]; [13]]%Z) (Row [1; 1; 0]%Z) (Whole 2) (Rows [[20]; [21]; [22]; [23]]%Z) =
    Ok [(2%nat, [Some [12]; Some [1; 1; 0]; Some [2]; Some [22]]); (0%nat, [Some [10]; Some [1; 1; 0]; Some [2]; Some [20]]);
        (1%nat, [Some [11]; Some [1; 1; 0]; Some [2]; Some [21]]); (3%nat, [Some [13]; Some [1; 1; 0]; Some [2]; Some [23]])]%Z.
Proof. split; [exact ex_argsort_sorts|]. split; [now left|]. split; [discriminate|]. now split. Qed.
Example C38_groups_case : Forall (fun a => fits 2 a /\ clear_path 2 4 a) [Rows [[1]; [2]]%Z; Row [1; 1; 0]%Z] /\
  draw_groups ex_argsort ex_ps (Uniform 2) [Rows [[1]; [2]]%Z] = Ok [([2; 3], [Some [2%Z]]); ([0; 1], [Some [1%Z]])].
Proof. split; [|reflexivity]. constructor; [split; left; reflexivity|]. constructor; [|constructor]. split; [exact Logic.I|split; discriminate]. Qed.
(** Pixels keep their colours but are drawn near first. *)
Theorem C38_pixels_near_first {XY} argsort (ps : list (XY * Q)) color : sorts argsort ->
  let n := length ps in fits n color -> clear n color ->
  exists order, visits n order /\
    near_first (fun j => option_map snd (nth_error ps j)) order /\
    map Some (pixels argsort ps (Some color)) =
      map (fun j => option_map (fun p => (fst p, [own color j])) (nth_error ps j)) order.
Proof. exact (fun S => pixels_drawn argsort S ps color). Qed.
Print Assumptions C38_pixels_near_first.
Theorem C38_pixels_refuted : exists (ps : list (nat * Q)) a b, pixels ex_argsort ps None = [(a, []); (b, [])] /\
  exists za zb, In (a, za) ps /\ In (b, zb) ps /\ (za < zb)%Q.
Proof. exact pixels_witness. Qed.
Print Assumptions C38_pixels_refuted.
(** With four points, a single RGBA colour has its channels shuffled. *)
Theorem C38_colour_refuted : exists (ps : list (nat * Q)) face out, own face 0 = Some [1; 0; 0; 1]%Z /\
  (forall j, own face j = own face 0) /\
  points ex_argsort ps face (Whole 0) (Whole 0) (Whole 1) = Ok out /\
  Forall (fun d => nth 0 (snd d) None <> own face 0) out /\ out <> [].
Proof. exact colour_witness. Qed.
Print Assumptions C38_colour_refuted.
(** One polygon of four vertices cannot be drawn with a single RGBA colour. *)
Theorem C38_square_refuted : exists (ps : list (nat * Q)) color paths, group ps (Uniform 4) = Ok paths /\ length paths = 1 /\
  own color 0 = Some [1; 0; 0; 1]%Z /\ draw_groups ex_argsort ps (Uniform 4) [color] = Err NotImplementedError.
Proof. exact square_witness. Qed.
Print Assumptions C38_square_refuted.

(** C39: a render that returns, or fails before it starts drawing, leaves the
    flag as it was; one that fails while drawing turns tracking off for good. *)
Theorem C39_returns {T} (flag : option T) s : is_ok (snd (render_flag flag s)) = true -> fst (render_flag flag s) = flag.
Proof. exact (flag_returns flag s). Qed.
Print Assumptions C39_returns.
Theorem C39_raises_partial {T} (flag : option T) s : ~ fails_inside s -> fst (render_flag flag s) = flag.
Proof. exact (flag_kept flag s). Qed.
Print Assumptions C39_raises_partial.
Theorem C39_raises_refuted {T} (flag : option T) s : fails_inside s ->
  fst (render_flag flag s) = None /\ is_ok (snd (render_flag flag s)) = false.
Proof. exact (flag_lost flag s). Qed.
Print Assumptions C39_raises_refuted.
Theorem C39_history {T} h (flag : option T) :
  (Forall (fun s => ~ fails_inside s) h -> renders flag h = flag) /\
  (Exists fails_inside h -> renders flag h = None).
Proof. exact (flag_history h flag). Qed.
Print Assumptions C39_history.
Example C39_case : fails_inside (mkSteps (Ok tt) (Ok tt) true (Err ValueError)) /\
  ~ fails_inside (mkSteps (Ok tt) (Ok tt) false (Err ValueError)) /\
  ~ fails_inside (mkSteps (Err TypeError) (Ok tt) true (Ok tt)).
Proof. unfold fails_inside. cbn. intuition discriminate. Qed.

(** C40: an array of sizes and explicit indices give consecutive groups of those
    sizes; a uniform size is the sizes k, ..., k. *)
Theorem C40_sizes {A} wrap (ps : list A) sizes :
  (forall k, k <= total sizes -> wrap (Z.of_nat k) = Z.of_nat k) ->
  group ps (Sizes wrap (map Z.of_nat sizes)) = Ok (cut ps sizes).
Proof. exact (sizes_group wrap ps sizes). Qed.
Print Assumptions C40_sizes.
Theorem C40_indices {A} (ps : list A) sizes : total sizes <= length ps ->
  group ps (Indices (index_groups 0 sizes)) = Ok (cut ps sizes).
Proof. exact (indices_group ps sizes). Qed.
Print Assumptions C40_indices.
Theorem C40_uniform {A} (ps : list A) k : 0 < k -> group ps (Uniform (Z.of_nat k)) = Ok (cut ps (repeat k (length ps / k))).
Proof. exact (uniform_group ps k). Qed.
Print Assumptions C40_uniform.
Theorem C40_forms_agree {A} (ps : list A) k : 0 < k ->
  let sizes := repeat k (length ps / k) in
  group ps (Uniform (Z.of_nat k)) = group ps (Sizes (fun z => z) (map Z.of_nat sizes)) /\
  group ps (Uniform (Z.of_nat k)) = group ps (Indices (index_groups 0 sizes)).
Proof. exact (forms_agree ps k). Qed.
Print Assumptions C40_forms_agree.
(** Groups whose sizes add up cover the vertices once, in order. *)
Theorem C40_covers {A} (ps : list A) sizes : total sizes = length ps -> concat (cut ps sizes) = ps.
Proof. exact (cut_covers ps sizes). Qed.
Print Assumptions C40_covers.
Theorem C40_group_sizes {A} (ps : list A) sizes : total sizes <= length ps -> map (@length A) (cut ps sizes) = sizes.
Proof. exact (cut_sizes ps sizes). Qed.
Print Assumptions C40_group_sizes.
Theorem C40_uniform_covers {A} (ps : list A) k paths : 0 < k -> group ps (Uniform (Z.of_nat k)) = Ok paths ->
  concat paths = firstn (length ps / k * k) ps /\ Forall (fun p => length p = k) paths /\
  (Nat.modulo (length ps) k = 0 -> concat paths = ps).
Proof. exact (uniform_covers ps k paths). Qed.
Print Assumptions C40_uniform_covers.
(** The visual allocates as many paths as are drawn. *)
Theorem C40_count {A} (ps : list A) i paths : (forall k, i = Uniform k -> (0 < k)%Z) -> group ps i = Ok paths ->
  path_count (length ps) i = Ok (Z.of_nat (length paths)).
Proof. exact (count_agrees ps i paths). Qed.
Print Assumptions C40_count.
Example C40_case : group [1; 2; 3; 4; 5; 6] (Uniform 2) = Ok [[1; 2]; [3; 4]; [5; 6]] /\
  group [1; 2; 3; 4; 5; 6] (Sizes (fun z => z) [1; 3; 2]%Z) = Ok [[1]; [2; 3; 4]; [5; 6]] /\
  group [1; 2; 3; 4; 5; 6] (Indices (index_groups 0 [1; 3; 2])) = Ok [[1]; [2; 3; 4]; [5; 6]] /\
  index_groups 0 [1; 3; 2] = [[0]; [1; 2; 3]; [4; 5]]%Z.
Proof. repeat split. Qed.
(** Exact failures. *)
Theorem C40_uniform_zero {A} (ps : list A) : group ps (Uniform 0) = Err ZeroDivisionError.
Proof. exact (uniform_zero ps). Qed.
Print Assumptions C40_uniform_zero.
Theorem C40_uniform_negative {A} (ps : list A) k : (k < 0)%Z -> group ps (Uniform k) = Ok [].
Proof. exact (uniform_negative ps k). Qed.
Print Assumptions C40_uniform_negative.
Theorem C40_indices_beyond {A} (ps : list A) sizes : total sizes > length ps ->
  group ps (Indices (index_groups 0 sizes)) = Err IndexError.
Proof. exact (indices_too_many ps sizes). Qed.
Print Assumptions C40_indices_beyond.
(** A uniform size that does not divide the number of vertices drops the last
    ones; sizes of a small integer type wrap. *)
Theorem C40_remainder_refuted : exists (ps : list nat) paths, group ps (Uniform 2) = Ok paths /\ concat paths <> ps.
Proof. exact remainder_witness. Qed.
Print Assumptions C40_remainder_refuted.
Theorem C40_overflow_refuted : exists (ps : list nat) sizes paths, total sizes = length ps /\ Forall (fun s => s < 256) sizes /\
  group ps (Sizes uint8 (map Z.of_nat sizes)) = Ok paths /\ concat paths <> ps.
Proof. exact overflow_witness. Qed.
Print Assumptions C40_overflow_refuted.

(** Without positions nothing is drawn; sizes that are neither one number nor one
    for each position are refused. *)
Theorem C38_nothing {XY S} argsort (shapes : list S) face edge width size : (forall k, length (argsort k) = length k) ->
  points (XY := XY) argsort [] face edge width size = Ok [] /\
  markers (XY := XY) argsort [] shapes face edge width size = Ok [].
Proof. exact (nothing_drawn argsort shapes face edge width size). Qed.
Print Assumptions C38_nothing.
Theorem C38_sizes_refused {XY S} argsort (ps : list (XY * Q)) (shapes : list S) face edge width size n : ps <> [] ->
  (exists l, size = Rows l /\ length l = n) \/ (exists l, size = Row l /\ length l = n) -> n <> length ps ->
  points argsort ps face edge width size = Err ValueError /\ markers argsort ps shapes face edge width size = Err ValueError.
Proof. exact (sizes_refused argsort ps shapes face edge width size n). Qed.
Print Assumptions C38_sizes_refused.
Example C38_sizes_refused_case : points ex_argsort [(1%nat, 1%Q); (2%nat, 2%Q)] (Whole 0) (Whole 0) (Whole 0) (Row [5; 6; 7]%Z) = Err ValueError.
Proof. reflexivity. Qed.
