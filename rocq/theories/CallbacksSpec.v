(** Vocabulary for functions connected to the camera that use it. *)
From Verif Require Import Base Camera CameraSpec Callbacks.
Local Open Scope list_scope.

Section Spec.
  Context {F M T : Type}.
  Notation action := (@action F M).
  Notation bodies := (F -> list action -> list (act F)).
  (** The functions called, in order. *)
  Definition called (l : list action) : list F := flat_map (fun a => match a with Call f _ _ _ _ => [f] | Draw _ => [] end) l.
  (** A call with these matrices. *)
  Definition given (model view proj : M) (a : action) : Prop :=
    match a with Call _ _ m v p => m = model /\ v = view /\ p = proj | Draw _ => True end.
  Definition starts_with {A} (l m : list A) : Prop := exists r, m = l ++ r.
  (** Functions that do nothing with the camera. *)
  Definition idle (body : bodies) : Prop := forall f l, body f l = [].
  (** A function that never runs or saves the camera. *)
  Definition never_runs (body : bodies) (f : F) : Prop := forall l, ~ In ARun (body f l).
  (** A function that connects nothing. *)
  Definition never_connects (body : bodies) (f : F) : Prop := forall l v name g, ~ In (AConnect v name g) (body f l).
  (** The functions that may be connected to each event: functions connect no others, nor
      does the program. *)
  Definition keeps_to (roster : kind -> list F) (body : bodies) : Prop :=
    forall k f l v name g k', In f (roster k) -> In (AConnect v name g) (body f l) -> kind_of name = Some k' -> In g (roster k').
  Definition program_keeps (roster : kind -> list F) (h : list (@op F)) : Prop :=
    forall v name g k, In (Connect v name g) h -> kind_of name = Some k -> In g (roster k).
  (** Why function [f] may raise [e]: it says so, or it connects to an event there is not. *)
  Definition blames (body : bodies) (f : F) (e : exn) : Prop :=
    exists l, In (ARaise e) (body f l) \/ e = KeyError /\ exists v name g, In (AConnect v name g) (body f l) /\ ~ valid name.
  (** The camera answers an event: over its viewport; motion during a drag, with a
      trackball; any release. *)
  Definition answers (c : @camera F M T) (e : mouse) : Prop :=
    In (m_figure e) (c_figures c) /\
    match m_kind e with
    | Release => True
    | Motion => (exists v, c_viewport c = Some v /\ m_inaxes e = Some v) /\ c_mouse c <> None /\ c_ball c <> None
    | _ => exists v, c_viewport c = Some v /\ m_inaxes e = Some v
    end.
End Spec.

(** ** Example data *)
(** Functions by name; the trackball counts its turns, and the model matrix is that number;
    every viewport is in a figure of its own. *)
Definition drag_ex (t : nat) (_ _ _ _ : Qc) : nat := S t.
Definition model_ex (t : nat) : nat := t.
Definition figure_ex (v : nat) : nat := v.
Definition camera_ex : @camera string nat nat := new_camera model_ex (Some 0%nat) 0%nat 10%nat 20%nat.
Definition mouse_ex (k : kind) (v : nat) : mouse := mkMouse k v (Some v) 0%Qc 0%Qc.
Local Open Scope string_scope.
Definition body_ex (f : string) (_ : list (@action string nat)) : list (act string) :=
  if String.eqb f "broken" then [ARaise ValueError]
  else if String.eqb f "saver" then [ARun]
  else if String.eqb f "mover" then [AConnect 1 "scroll" "move"]
  else if String.eqb f "adder" then [AConnect 0 "press" "move"]
  else if String.eqb f "wrong" then [AConnect 0 "click" "move"]
  else if String.eqb f "leaver" then [ADisconnect]
  else [].
Definition roster_ex (k : kind) : list string :=
  match k with Motion => ["move"; "broken"; "leaver"; "mover"] | Press => ["adder"; "saver"; "move"] | Scroll => ["move"] | Release => ["wrong"; "move"] end.
(** Numbered functions, each connecting the next one. *)
Definition breeding (n : nat) (_ : list (@action nat nat)) : list (act nat) := [AConnect 0 "motion" (S n)].
Definition breeder : @camera nat nat nat := new_camera model_ex (Some 0%nat) 0%nat 10%nat 20%nat.
