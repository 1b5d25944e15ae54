(** Functions connected to the camera that use it: examples/common/camera.py.

    Camera.v takes functions that neither fail nor touch the camera.  Here a function may
    connect functions, disconnect the camera, run or save it, and raise.  What it does may
    depend on everything seen so far: all calls of functions and all drawings.

    Simplifications: as in Camera.v; a function does not catch the errors of the camera's
    methods; plt.show and plt.savefig return and call no function of the camera; a loop or a
    recursion that does not end is [None] for every amount of fuel (Python loops, or ends a
    recursion by a RecursionError). *)
From Verif Require Import Base Camera.
Local Open Scope list_scope.

(** What a function does with the camera, in order: examples/common/camera.py:76-90, 116-160
    and 223-230. *)
Inductive act {F : Type} := AConnect (viewport : nat) (event : string) (f : F) | ADisconnect | ARun | ARaise (e : exn).
Arguments act : clear implicits.

Section Callbacks.
  Context {F M T : Type} `{EqB F} (drag_to : T -> Qc -> Qc -> Qc -> Qc -> T) (model : T -> M) (figure : nat -> nat).
  Notation camera := (@camera F M T).
  Notation action := (@action F M).
  (** What function [f] does, called after [seen]. *)
  Variable body : F -> list action -> list (act F).
  (** The camera after, everything seen, and how it ended.
      Of a method of the camera, examples/common/camera.py:76-230. *)
  Definition outcome : Type := camera * list action * res unit.

  (** The body of a function, given what [run] does: examples/common/camera.py:76-90. *)
  Fixpoint acting (run : camera -> list action -> option outcome) (c : camera) (seen : list action) (l : list (act F)) : option outcome :=
    match l with
    | [] => Some (c, seen, Ok tt)
    | ARaise e :: _ => Some (c, seen, Err e)
    | AConnect v name g :: l' =>
        match connect figure c v name g with
        | (c', (out, Ok _)) => acting run c' (seen ++ out) l'
        | (c', (out, Err e)) => Some (c', seen ++ out, Err e)
        end
    | ADisconnect :: l' =>
        match disconnect figure c with
        | (c', (out, Ok _)) => acting run c' (seen ++ out) l'
        | (c', (out, Err e)) => Some (c', seen ++ out, Err e)
        end
    | ARun :: l' =>
        match run c seen with
        | Some (c', seen', Ok _) => acting run c' seen' l'
        | x => x
        end
    end.
  (** update, examples/common/camera.py:93-99, from the function at place [i] on: the loop goes
      over the list itself, and sees what is added to it meanwhile. *)
  Fixpoint updating (fuel : nat) (k : kind) (i : nat) (c : camera) (seen : list action) : option outcome :=
    match fuel with
    | O => None
    | S fuel' =>
        match nth_error (c_updates c k) i with
        | None => Some (c, seen, Ok tt)
        | Some f =>
            match c_viewport c with
            | None => Some (c, seen, Err AttributeError)
            | Some v =>
                let seen := seen ++ [Call f v (c_model c) (c_view c) (c_proj c)] in
                match acting (updating fuel' Motion 0) c seen (body f seen) with
                | Some (c', seen', Ok _) => updating fuel' k (S i) c' seen'
                | x => x
                end
            end
        end
    end.
  (** update, then canvas_draw: examples/common/camera.py:181-182, 193-194, 210-211 and 219-220. *)
  Definition updating_draw (fuel : nat) (k : kind) (c : camera) (seen : list action) : option outcome :=
    match updating fuel k 0 c seen with
    | Some (c', seen', Ok _) =>
        match c_viewport c' with
        | None => Some (c', seen', Err AttributeError)
        | Some v => Some (c', seen' ++ [Draw (figure v)], Ok tt)
        end
    | x => x
    end.
  (** on_scroll, on_press, on_motion and on_release, examples/common/camera.py:163-220. *)
  Definition on_event (fuel : nat) (c : camera) (seen : list action) (e : mouse) : option outcome :=
    match m_kind e with
    | Scroll => if over c e then updating_draw fuel Scroll c seen else Some (c, seen, Ok tt)
    | Press => if over c e then updating_draw fuel Press (with_mouse c (Some (m_x e, m_y e))) seen else Some (c, seen, Ok tt)
    | Motion =>
        match c_mouse c with
        | None => Some (c, seen, Ok tt)
        | Some (x0, y0) =>
            if over c e then
              match c_ball c with
              | None => Some (c, seen, Ok tt)
              | Some t =>
                  let t' := drag_to t (m_x e) (m_y e) (m_x e - x0)%Qc (m_y e - y0)%Qc in
                  updating_draw fuel Motion
                    (mkCam (Some t') (model t') (c_view c) (c_proj c) (c_updates c) (c_viewport c) (Some (m_x e, m_y e)) (c_cids c) (c_figures c)) seen
              end
            else Some (c, seen, Ok tt)
        end
    | Release => updating_draw fuel Release (with_mouse c None) seen
    end.
  (** One operation, examples/common/camera.py:76-230. *)
  Definition live_step (fuel : nat) (c : camera) (seen : list action) (o : @op F) : option outcome :=
    match o with
    | Connect v name f => let '(c', (out, r)) := connect figure c v name f in Some (c', seen ++ out, r)
    | Mouse e => if mem_nat (m_figure e) (c_figures c) then on_event fuel c seen e else Some (c, seen, Ok tt)
    | Run => updating fuel Motion 0 c seen
    | Disconnect => let '(c', (out, r)) := disconnect figure c in Some (c', seen ++ out, r)
    end.
  (** Operations in order; the errors of functions end the operation only (matplotlib prints
      them): examples/common/camera.py:76-230. *)
  Fixpoint live_steps (fuel : nat) (c : camera) (seen : list action) (l : list (@op F)) : option (camera * list action) :=
    match l with
    | [] => Some (c, seen)
    | o :: l' => match live_step fuel c seen o with Some (c', seen', _) => live_steps fuel c' seen' l' | None => None end
    end.
End Callbacks.
