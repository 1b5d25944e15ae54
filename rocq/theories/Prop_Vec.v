(** C48: vector conversions. *)
From Coq Require Import Reals Lra.
From Verif Require Import Base Glm GlmSpec Vec VecSpec VecFacts.
Local Open Scope R_scope.

(** ** Documented conventions: every row, for two, three and four columns, with
    the type asked for or the array's own. *)
Theorem C48_to_vec2_convention dt k c l :
  let k' := match dt with Some k' => k' | None => k end in
  rectangular c l -> (c = 2 \/ c = 3 \/ c = 4)%nat -> finite_w c l -> (c = 4%nat -> k' = KFloat) ->
  exists l', to_vec2 dt (table k c l) = Ok (table k' 2 l') /\ rows_as k' as2 l l'.
Proof. exact (to_vec2_ok dt k c l). Qed.
Print Assumptions C48_to_vec2_convention.
Theorem C48_to_vec3_convention dt k c l :
  let k' := match dt with Some k' => k' | None => k end in
  rectangular c l -> (c = 2 \/ c = 3 \/ c = 4)%nat -> finite_w c l ->
  exists l', to_vec3 dt (table k c l) = Ok (table k' 3 l') /\ rows_as k' as3 l l'.
Proof. exact (to_vec3_ok dt k c l). Qed.
Print Assumptions C48_to_vec3_convention.
Theorem C48_to_vec4_convention dt k c l :
  let k' := match dt with Some k' => k' | None => k end in
  rectangular c l -> (c = 2 \/ c = 3 \/ c = 4)%nat ->
  exists l', to_vec4 dt (table k c l) = Ok (table k' 4 l') /\ rows_as k' as4 l l'.
Proof. exact (to_vec4_ok dt k c l). Qed.
Print Assumptions C48_to_vec4_convention.
Example C48_example_rows : rectangular 4 [[1; 2; 3; 2]; [0; 0; 0; -1]] /\ finite_w 4 [[1; 2; 3; 2]; [0; 0; 0; -1]].
Proof. split; [repeat constructor|]. intros _. repeat constructor; cbn; lra. Qed.
(** Numbers in a row. *)
Theorem C48_flat_convention dt k l m :
  let k' := match dt with Some k' => k' | None => k end in
  let says n (f : option kind -> arr -> res arr) :=
    (length l = m * n)%nat ->
    exists l' q, f dt (mkA k (Flat (map Num l))) = Ok (mkA k' (Rows n l')) /\ length l' = m /\
                 Forall (fun r => length r = n) l' /\ concat l' = map Num q /\ Forall2 (kept k') l q in
  says 2%nat to_vec2 /\ says 3%nat to_vec3 /\ says 4%nat to_vec4.
Proof. exact (flat_ok dt k l m). Qed.
Print Assumptions C48_flat_convention.
(** A vector at infinity has no finite components. *)
Theorem C48_at_infinity k l i x y z :
  nth_error l i = Some [x; y; z; 0] ->
  exists l', to_vec3 None (table k 4 l) = Ok (mkA k (Rows 3 l')) /\
             length l' = length l /\ nth_error l' i = Some [NonFinite; NonFinite; NonFinite].
Proof. exact (to_vec3_infinite k l i x y z). Qed.
Print Assumptions C48_at_infinity.
(** Homogeneous integers do not follow the convention: one conversion refuses
    them, the other drops fractions. *)
Theorem C48_integer_convention_refuted l :
  to_vec2 None (table KInt 4 l) = Err TypeError /\
  to_vec3 None (table KInt 4 [[1; 2; 3; 2]]) = Ok (table KInt 3 [[0; 1; 1]]) /\ ~ as3 [1; 2; 3; 2] [0; 1; 1].
Proof. exact (conj (integer_homogeneous l) integer_truncated). Qed.
Print Assumptions C48_integer_convention_refuted.

(** ** Round trips. *)
Theorem C48_vec3_through_vec4 k l : rectangular 3 l -> suits k l ->
  (let* v := to_vec4 None (table k 3 l) in to_vec3 None v) = Ok (table k 3 l).
Proof. exact (via_vec4 k l). Qed.
Print Assumptions C48_vec3_through_vec4.
Theorem C48_vec2_through_vec3 k l : rectangular 2 l -> suits k l ->
  (let* v := to_vec3 None (table k 2 l) in to_vec2 None v) = Ok (table k 2 l).
Proof. exact (via_vec3 k l). Qed.
Print Assumptions C48_vec2_through_vec3.
Theorem C48_vec2_through_vec4 l : rectangular 2 l ->
  (let* v := to_vec4 None (table KFloat 2 l) in to_vec2 None v) = Ok (table KFloat 2 l).
Proof. exact (via_vec4_2 l). Qed.
Print Assumptions C48_vec2_through_vec4.
Theorem C48_vec2_through_vec4_refuted l :
  (let* v := to_vec4 None (table KInt 2 l) in to_vec2 None v) = Err TypeError.
Proof. exact (via_vec4_2_int l). Qed.
Print Assumptions C48_vec2_through_vec4_refuted.
Theorem C48_vec4_through_vec3 l : rectangular 4 l -> finite_w 4 l ->
  exists l', (let* v := to_vec3 None (table KFloat 4 l) in to_vec4 None v) = Ok (table KFloat 4 l') /\
             Forall2 (fun r r' => exists w, w <> 0 /\ r = map (Rmult w) r') l l'.
Proof. exact (back_to_vec4 l). Qed.
Print Assumptions C48_vec4_through_vec3.
Example C48_example_suits : suits KInt [[1; 2; 3]; [-4; 0; 7]] /\ rectangular 3 [[1; 2; 3]; [-4; 0; 7]].
Proof. split; [intros _; repeat constructor; match goal with |- exists n, ?r = _ => idtac end|repeat constructor].
  all: eexists; reflexivity. Qed.

(** ** Shapes that cannot be converted. *)
Theorem C48_refused dt V :
  (~ convertible 2 (a_data V) -> (forall l, a_data V <> Rows 0 l) -> to_vec2 dt V = Err TypeError) /\
  (~ convertible 3 (a_data V) -> to_vec3 dt V = Err TypeError) /\
  (~ convertible 4 (a_data V) -> to_vec4 dt V = Err TypeError).
Proof. exact (conj (refused2 dt V) (conj (refused3 dt V) (refused4 dt V))). Qed.
Print Assumptions C48_refused.
Theorem C48_refused_refuted dt k l :
  to_vec2 dt (mkA k (Rows 0 l)) = Err ValueError /\ to_vec3 dt (mkA k (Rows 0 l)) = Err TypeError.
Proof. exact (no_columns dt k l). Qed.
Print Assumptions C48_refused_refuted.
Example C48_example_refused : ~ convertible 2 (Flat [Num 1]) /\ ~ convertible 3 (Rows 5 []) /\ ~ convertible 4 (Other [] [Num 1]).
Proof. cbn. split; [intros [m H]; lia|]. split; [intros [H|[H|H]]; discriminate H|auto]. Qed.

(** ** Views keep every number, in order. *)
Theorem C48_views n k dt d m x : (0 < n)%nat -> elements d = map Num x -> (length x = m * n)%nat ->
  let k' := match dt with Some k' => k' | None => k end in
  exists l' q, as_vec n dt (mkA k d) = Ok (mkA k' (Rows n l')) /\ length l' = m /\
               Forall (fun r => length r = n) l' /\ concat l' = map Num q /\
               match dt with Some k' => Forall2 (kept k') x q | None => q = x end.
Proof. exact (as_vec_ok n k dt d m x). Qed.
Print Assumptions C48_views.
Theorem C48_views_refused n dt V : (0 < n)%nat -> (~ exists m, length (elements (a_data V)) = m * n)%nat ->
  as_vec n dt V = Err ValueError.
Proof. exact (as_vec_refused n dt V). Qed.
Print Assumptions C48_views_refused.

(** ** Where visuals put their points: the image under the transform, after
    perspective division; plain image when the transform is affine. *)
Theorem C48_points_projected k l m ps :
  Forall2 triple l ps -> suits k l -> Forall (fun p => w4 (apply4 m (point p)) <> 0) ps ->
  exists l' qs, placed (table k 3 l) m = Ok (table KFloat 3 l') /\ Forall2 triple l' qs /\ Forall2 (projects m) ps qs.
Proof. exact (placed_ok k l m ps). Qed.
Print Assumptions C48_points_projected.
(** The same when the positions are given flat, or in any other shape that holds the
    same numbers. *)
Theorem C48_points_reshaped k d l m ps : elements d = map Num (concat l) ->
  Forall2 triple l ps -> suits k l -> Forall (fun p => w4 (apply4 m (point p)) <> 0) ps ->
  exists l' qs, placed_points (mkA k d) m = Ok (table KFloat 3 l') /\ Forall2 triple l' qs /\ Forall2 (projects m) ps qs.
Proof. exact (placed_points_ok k d l m ps). Qed.
Print Assumptions C48_points_reshaped.
Theorem C48_points_sent k l m ps :
  Forall2 triple l ps -> suits k l -> row3 m = V4 0 0 0 1 ->
  exists l' qs, placed (table k 3 l) m = Ok (table KFloat 3 l') /\ Forall2 triple l' qs /\ Forall2 (sends m) ps qs.
Proof. exact (placed_affine k l m ps). Qed.
Print Assumptions C48_points_sent.
Example C48_example_points :
  Forall2 triple [[1; 2; 3]] [V3 1 2 3] /\
  w4 (apply4 (Mat (V4 1 0 0 0) (V4 0 1 0 0) (V4 0 0 1 0) (V4 0 0 (-1) 0)) (point (V3 1 2 3))) <> 0.
Proof. split; [repeat constructor|]. unfold apply4, dot4, point. cbn [x4 y4 z4 w4 x3 y3 z3 row3]. lra. Qed.
