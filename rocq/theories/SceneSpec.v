(** Vocabulary for the properties of visuals in viewports: everything is said of
    histories. *)
From Verif Require Import Base Scene.

Section Spec.
Context {M : Type}.
(** The visuals and the number of viewports made. *)
Fixpoint kinds (h : list (event M)) : list kind :=
  match h with [] => [] | ENewVisual k :: r => k :: kinds r | _ :: r => kinds r end.
Fixpoint viewports (h : list (event M)) : nat :=
  match h with [] => 0 | ENewViewport :: r => S (viewports r) | _ :: r => viewports r end.
(** Visual [v] has been rendered in viewport [p], both being there. *)
Definition performed (h : list (event M)) (v p : nat) : Prop :=
  exists h1 h2 a b c, h = h1 ++ ERender v p a b c :: h2 /\ v < length (kinds h1) /\ p < viewports h1.
(** The matrices last given to visual [v] in a render that could take place. *)
Definition keep (o : option M) (d : M) : M := match o with Some m => m | None => d end.
Fixpoint last_given (nv np : nat) (h : list (event M)) (v : nat) (ms : M * M * M) : M * M * M :=
  match h with
  | [] => ms
  | ENewVisual _ :: r => last_given (S nv) np r v ms
  | ENewViewport :: r => last_given nv (S np) r v ms
  | ERender v' p a b c :: r =>
      last_given nv np r v
        (if (v' =? v)%nat && (v <? nv)%nat && (p <? np)%nat
         then let '(m, vw, pr) := ms in (keep a m, keep b vw, keep c pr) else ms)
  | _ :: r => last_given nv np r v ms
  end.
(** projection times view times model. *)
Definition transform (mul : M -> M -> option M) (ms : M * M * M) : option M :=
  let '(m, vw, pr) := ms in match mul pr vw with Some x => mul x m | None => None end.
(** The last size the figure has been given. *)
Fixpoint last_size (h : list (event M)) (d : size) : size :=
  match h with [] => d | EResize z :: r => last_size r z | _ :: r => last_size r d end.
(** The transform a collection shows. *)
Definition shown_transform (s : scene M) (v p : nat) : option M := option_map fst (s_shown s v p).
(** How often visual [v] is drawn in viewport [p]. *)
Definition times (s : scene M) (v p : nat) : nat := count_occ Nat.eq_dec (nth p (s_axes s) []) v.
End Spec.
