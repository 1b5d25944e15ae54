(** Vocabulary for the properties of measures in double precision. *)
From Verif Require Import Base Image ImageSpec Measure.
From Coq Require Export Qcabs.
Local Open Scope Qc_scope.

(** A floating-point number: a whole number below 2^53 times a power of two, or its
    opposite. *)
Definition is_double (x : Qc) : Prop := double (Z.abs (Qnum x)) (Zpos (Qden x)).
(** Off by at most [k] times 2^-53 of the exact value. *)
Definition within (k : Z) (x y : Qc) : Prop := Qcabs (x - y) <= q k (2 ^ 53) * Qcabs y.
Definition near_values (k : Z) (x y : mval) : Prop :=
  match x, y with
  | Num a, Num b => within k a b
  | Arr w r, Arr w' s => w = w' /\ Forall2 (Forall2 (within k)) r s
  | _, _ => False
  end.
(** Not above, component by component. *)
Definition below (x y : mval) : Prop :=
  match x, y with
  | Num a, Num b => a <= b
  | Arr w r, Arr w' s => w = w' /\ Forall2 (Forall2 Qcle) r s
  | _, _ => False
  end.
Definition at_dpi (d : Qc) : vars := mkVars (Some d) None None None.
Definition whole (n : Z) : Qc := q n 1.
(** Sizes are positive, resolutions are not negative, and limits are in order. *)
Definition positive_size (s : Qc * Qc) : Prop := 0 < fst s /\ 0 < snd s.
Definition in_order (l : Qc * Qc) : Prop := fst l <= snd l.
Definition upright (v : vars) : Prop :=
  (forall d, v_dpi v = Some d -> 0 <= d) /\
  (forall w, v_view v = Some w -> positive_size (w_size w) /\ in_order (w_xlim w) /\ in_order (w_ylim w) /\ 0 <= c_dpi (w_canvas w)) /\
  (forall c, v_canvas v = Some c -> positive_size (c_size c) /\ 0 <= c_dpi c) /\
  (forall s, v_size v = Some s -> positive_size s).
(** The floating-point number nearest to [x]. *)
Definition nearest (a x : Qc) : Prop := is_double a /\ forall c, is_double c -> Qcabs (a - x) <= Qcabs (c - x).

(** Example contexts. *)
Definition ex_canvas : canvas := mkCanvas (whole 100) (whole 800, whole 600).
Definition ex_view : vars := mkVars None (Some (mkView ex_canvas (whole 300, whole 700) (- (1), 1) (- (1), 1))) None None.
