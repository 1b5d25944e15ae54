(** Examples run with the camera.  Models parse_args and render of
    examples/common/launcher.py:45-122 and 175-209 on top of Scene.v and Camera.v's
    events: the function given to the camera renders every visual in the first
    viewport with the matrices of the camera.

    Simplifications: the camera is seen through the matrices of its updates (Camera.v
    says when they happen); the example's own onRender does nothing; visuals and
    viewports are numbers, in order of creation. *)
From Verif Require Import Base Scene.

Section Launcher.
Context {M : Type}.
Variable mul : M -> M -> option M.
Variable eye : M.
(** The inner function [update], launcher.py:111-116. *)
Definition sweep (visuals : list nat) (viewport : nat) (m : M * M * M) : list (event M) :=
  let '(model, view, proj) := m in map (fun v => ERender v viewport (Some model) (Some view) (Some proj)) visuals.
(** launcher.py:206-207, 118-120: the first viewport; without one, connect raises. *)
Definition launch (s : scene M) (viewports visuals : list nat) (updates : list (M * M * M)) : res (scene M) :=
  match viewports with
  | [] => Err AttributeError
  | p :: _ => Ok (fold_left (fun s m => run mul eye s (sweep visuals p m)) updates s)
  end.
End Launcher.
(** The modules an example uses and what is done at the end, launcher.py:28-43 and
    71-122: argparse refuses other words. *)
Inductive package := Gsp | Gsp_matplotlib.
(** launcher.py:71-79, 100-107 and 108-120. *)
Inductive ending := SaveCommands | SaveImage | RunCamera.
(** The word given on the command line, launcher.py:141-147, and the branches of 30-37 and 71-122. *)
Definition choose (arg : option string) : option (package * ending) :=
  match arg with
  | None => Some (Gsp_matplotlib, RunCamera)
  | Some a => if String.eqb a "commands" then Some (Gsp, SaveCommands)
              else if String.eqb a "matplotlib_image" then Some (Gsp_matplotlib, SaveImage)
              else if String.eqb a "matplotlib_camera" then Some (Gsp_matplotlib, RunCamera)
              else None
  end.
