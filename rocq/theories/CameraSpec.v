(** What a user of the camera expects, told from the history of what they did. *)
From Verif Require Import Base Camera.
Local Open Scope list_scope.

Section Spec.
  Context {F T : Type} `{EqB F} (drag_to : T -> Qc -> Qc -> Qc -> Qc -> T) (figure : nat -> nat).
  Notation op := (@op F).
  (** A list without the later occurrences of its elements. *)
  Fixpoint firsts (l : list F) : list F :=
    match l with [] => [] | x :: l' => x :: filter (fun y => negb (Base.eqb x y)) (firsts l') end.
  (** The functions connected to an event, in order. *)
  Definition connected (k : kind) (h : list op) : list F :=
    flat_map (fun o => match o with
                       | Connect _ name f => if String.eqb name (match k with Motion => "motion" | Scroll => "scroll" | Press => "press" | Release => "release" end)
                                             then [f] else []
                       | _ => [] end) h.
  (** The viewport connected last. *)
  Fixpoint last_viewport (h : list op) : option nat :=
    match h with
    | [] => None
    | o :: h' => match last_viewport h', o with
                 | Some v, _ => Some v
                 | None, Connect v _ _ => Some v
                 | None, _ => None
                 end
    end.
  Definition valid (name : string) : Prop := In name ["motion"; "scroll"; "press"; "release"]%string.
  (** Histories that connect to known events only, and never disconnect. *)
  Definition plain (h : list op) : Prop :=
    Forall (fun o => match o with Connect _ name _ => valid name | Disconnect => False | _ => True end) h.
  Definition all_valid (h : list op) : Prop :=
    Forall (fun o => match o with Connect _ name _ => valid name | _ => True end) h.
  (** Viewports of one figure. *)
  Definition one_figure (g : nat) (h : list op) : Prop :=
    Forall (fun o => match o with Connect v _ _ => figure v = g | _ => True end) h.
  (** Is an event seen by the viewport connected last? *)
  Definition seen (v : nat) (e : mouse) : bool := match m_inaxes e with Some a => Nat.eqb a v | None => false end.
  (** Is a drag going on after a history, given with its latest step first?  A press
      over the viewport connected last begins one; a release in a figure connected
      to, and any connection, ends it. *)
  Definition heard (g : nat) (r : list op) : bool :=
    existsb (fun o => match o with Connect v _ _ => Nat.eqb (figure v) g | _ => false end) r.
  Fixpoint dragging (r : list op) : bool :=
    match r with
    | [] => false
    | Connect _ _ _ :: _ => false
    | Mouse e :: r' =>
        match m_kind e with
        | Press => (heard (m_figure e) r' && match last_viewport (rev r') with Some v => seen v e | None => false end) || dragging r'
        | Release => negb (heard (m_figure e) r') && dragging r'
        | _ => dragging r'
        end
    | _ :: r' => dragging r'
    end.
  (** How the trackball follows the pointer from where it was, over a viewport. *)
  Fixpoint follow (v : nat) (t : T) (x y : Qc) (l : list mouse) : T :=
    match l with
    | [] => t
    | e :: l' => if seen v e then follow v (drag_to t (m_x e) (m_y e) (m_x e - x) (m_y e - y))%Qc (m_x e) (m_y e) l' else follow v t x y l'
    end.
  (** The moves reported to the trackball. *)
  Fixpoint moves (v : nat) (x y : Qc) (l : list mouse) : list (Qc * Qc) :=
    match l with
    | [] => []
    | e :: l' => if seen v e then (m_x e - x, m_y e - y)%Qc :: moves v (m_x e) (m_y e) l' else moves v x y l'
    end.
End Spec.
