(** Vocabulary for the properties of visuals: histories and what they leave. *)
From Verif Require Import Base Transform TransformSpec Visual.
Local Open Scope string_scope.

Section Spec.
Context {A M : Type}.
Implicit Types (s : visual A M) (W : world A M).

(** A history of assignments, whatever each raises. *)
Fixpoint assignments W s (h : list (string * value)) : visual A M :=
  match h with [] => s | (n, v) :: r => assignments W (fst (set_variable W s n v)) r end.
(** The last element a history gives to [n], or [d]. *)
Fixpoint latest {X} (n : string) (d : X) (h : list (string * X)) : X :=
  match h with [] => d | (m, v) :: r => latest n (if String.eqb m n then v else d) r end.
(** The values a history gives to [n], oldest first. *)
Fixpoint given_to {X} (n : string) (h : list (string * X)) : list X :=
  match h with [] => [] | (m, v) :: r => if String.eqb m n then v :: given_to n r else given_to n r end.

(** What is seen through a value: the value and, for an array, its contents. *)
Definition seen s (v : value) : value * option A :=
  (v, match v with VRef i => nth_error (v_arrays s) i | _ => None end).
(** Nothing but variables and arrays differs. *)
Definition same_matrices s s' : Prop :=
  v_model s' = v_model s /\ v_view s' = v_view s /\ v_proj s' = v_proj s /\ v_transform s' = v_transform s.

(** The part of a name before the first dot. *)
Fixpoint before_dot (n : string) : string :=
  match n with
  | EmptyString => EmptyString
  | String a r => if Ascii.eqb a "."%char then EmptyString else String a (before_dot r)
  end.
(** The text of [k] names the components [l] among the letters [sw]. *)
Fixpoint letters (k : string) : list ascii := match k with EmptyString => [] | String a r => a :: letters r end.
Definition picks (sw k : string) (l : list nat) : Prop :=
  Forall2 (fun a i => nth_error (letters sw) i = Some a) (letters k) l.
(** What a transform reads under a name: the output, or else the input. *)
Definition read s (n : string) : option value :=
  match dget (v_out s) n with Some i => Some (VRef i) | None => dget (v_in s) n end.
(** The names evaluating a tree looks up. *)
Fixpoint names_read (t : tree value) : list string :=
  match t with
  | Node (KOut n) _ _ _ _ => [before_dot n]
  | Node (KOp _) l r _ _ => (names_read_in l ++ names_read_in r)%list
  | Node _ _ _ n _ => ("dpi" :: "viewport" :: "canvas" :: "size" :: "index" :: names_read_in n)%list
  end
with names_read_in (x : branch value) : list string := match x with BT t => names_read t | _ => [] end.

(** A history of renders: viewport and matrices, when given. *)
Definition call : Type := value * (option M * (option M * option M)).
Fixpoint renders W s (h : list call) : visual A M :=
  match h with [] => s | (vp, (m, (v, p))) :: r => renders W (fst (render W s vp m v p)) r end.
(** The last matrix given. *)
Fixpoint last_given (d : M) (h : list (option M)) : M :=
  match h with [] => d | Some m :: r => last_given m r | None :: r => last_given d r end.
End Spec.
