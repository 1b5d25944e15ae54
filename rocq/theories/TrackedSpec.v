(** Vocabulary for the properties of tracked arrays. *)
From Verif Require Import Base Slice Tracked.
Local Open Scope Z_scope.

(** Byte [x] of the base array belongs to the view. *)
Definition byte_of (w : Z) (v : view) (x : Z) : Prop :=
  exists a, In a (elements v) /\ a <= x < a + w.
(** The base array reports byte [x] as modified. *)
Definition reported (t : tstate) (x : Z) : Prop :=
  exists s e, t_dirty t = Some (s, e) /\ s <= x < e.

(** Keys and views that never go backwards. *)
Definition forward_key (key : list ix) : Prop :=
  Forall (fun k => match k with XInt _ => True | XSlice _ _ c => 0 <= c end) key.
Definition forward_view (v : view) : Prop := Forall (fun d => 0 <= snd d) (v_dims v).

(** The key selects a single element of the array named [h]. *)
Definition selects_scalar (t : tstate) (h : nat) (key : list ix) : Prop :=
  exists x z, nth_error (t_handles t) h = Some x /\ sub (view_of t x) key = Ok z /\ v_dims z = [].
(** The assignment does not raise. *)
Definition set_succeeds (t : tstate) (h : nat) (key : list ix) : Prop :=
  exists x z, nth_error (t_handles t) h = Some x /\ sub (view_of t x) key = Ok z.

(** Every operation of a history satisfies [P] in the state it starts from. *)
Fixpoint each (P : tstate -> op -> Prop) (t : tstate) (l : list op) : Prop :=
  match l with [] => True | o :: r => P t o /\ each P (step t o) r end.

(** Histories for which the reported extent is right: no backward slices,
    single elements assigned through the base array only, no in-place operator
    that the class does not override. *)
Definition trackable (t : tstate) (o : op) : Prop :=
  match o with
  | OGet _ key => forward_key key
  | OSet h key _ => forward_key key /\ (h = 0%nat \/ ~ selects_scalar t h key)
  | OInplace _ _ => True
  | OOther _ _ => False
  | OClear => True
  end.
Definition not_clear (o : op) : Prop := o <> OClear.

(** Histories for which the tracker is up to date after every assignment:
    views are taken from the base array itself, and in-place operators are
    applied to forward views. *)
Definition mirrored_direct (t : tstate) (o : op) : Prop :=
  match o with
  | OGet h _ => h = 0%nat
  | OSet h key _ => h = 0%nat -> forward_key key
  | OInplace h _ => forall x, nth_error (t_handles t) h = Some x -> forward_view (view_of t x)
  | OOther _ _ => False
  | OClear => False
  end.
(** Histories of assignments only, through views of any depth. *)
Definition mirrored_sets (t : tstate) (o : op) : Prop :=
  match o with
  | OGet _ key => forward_key key
  | OSet h key _ => h = 0%nat -> forward_key key
  | OInplace _ _ | OOther _ _ => False
  | OClear => True
  end.

(** The tracker's copy agrees with the array. *)
Definition in_sync (t : tstate) : Prop := forall x, 0 <= x < nbytes t -> t_copy t x = t_mem t x.
