(** What the canvases and the viewports of a session show, on the side of the program
    and on the side of the server that loads its file: gsp_matplotlib/core/canvas.py
    and gsp_matplotlib/core/viewport.py, called by the program
    (gsp/io/command.py:202-303) or for a command (gsp/io/command.py:409-455).

    Simplifications: those of Panes.v and Session.v.  Lengths are ints and floats
    (transforms cannot be sent, C91); visuals are left out. *)
From Verif Require Import Base Registry Convert Command Execute Session Measure Viewport Panes.
Open Scope string_scope.

Section Remote.
  (** Colours as matplotlib understands them, gsp_matplotlib/core/viewport.py:33, and
      the value of a float. *)
  Context {C : Type} (num : Z -> Qc) (hue : value -> C).

  (** A length, gsp_matplotlib/core/viewport.py:15-20; other values are refused
      (simplification: wherever they would be). *)
  Definition as_coord (v : value) : res coord :=
    match v with VInt z => Ok (CInt z) | VFloat z => Ok (CFloat (num z)) | _ => Err TypeError end.
  (** The resolution, gsp_matplotlib/core/canvas.py:27-34. *)
  Definition as_number (v : value) : res Qc :=
    match v with VInt z => Ok (zq z) | VFloat z => Ok (num z) | _ => Err TypeError end.
  (** The argument of a parameter without default, gsp_matplotlib/core/viewport.py:15-20. *)
  Definition arg (kws : dict string value) (k : string) : res value :=
    match dget kws k with Some v => Ok v | None => Err TypeError end.

  (** The canvases made so far, with what is on them, gsp_matplotlib/core/canvas.py:27-34. *)
  Definition gallery := list (ref * desk C).
  (** [canvas._figure], gsp_matplotlib/core/viewport.py:24-29. *)
  Fixpoint hung (t : gallery) (r : ref) : option (desk C) :=
    match t with
    | [] => None
    | (k, d) :: t' => if Nat.eqb k r then Some d else hung t' r
    end.
  (** The figure changed, gsp_matplotlib/core/viewport.py:29. *)
  Fixpoint hang (t : gallery) (r : ref) (d : desk C) : gallery :=
    match t with
    | [] => []
    | (k, d0) :: t' => if Nat.eqb k r then (k, d) :: t' else (k, d0) :: hang t' r d
    end.
  (** The bodies of the constructors: Canvas, gsp_matplotlib/core/canvas.py:16-37;
      Viewport, gsp_matplotlib/core/viewport.py:15-46.  Other classes show nothing
      themselves. *)
  Definition construct (t : gallery) (r : ref) (path : string) (kws : dict string value) : res gallery :=
    if String.eqb path "core.Canvas" then
      let* w := arg kws "width" in let* w := as_coord w in
      let* h := arg kws "height" in let* h := as_coord h in
      let* dpi := arg kws "dpi" in let* dpi := as_number dpi in
      let* f := new_canvas w h dpi in
      Ok (t ++ [(r, bare f (fun _ => 1%Qc))])%list
    else if String.eqb path "core.Viewport" then
      let* c := arg kws "canvas" in
      let* x := arg kws "x" in let* x := as_coord x in
      let* y := arg kws "y" in let* y := as_coord y in
      let* w := arg kws "width" in let* w := as_coord w in
      let* h := arg kws "height" in let* h := as_coord h in
      let* color := arg kws "color" in
      match c with
      | VObj _ k =>
          match hung t k with
          | Some d => let* d' := act_on d (Panes.New x y w h (hue color)) in Ok (hang t k d')
          | None => Err AttributeError
          end
      | _ => Err AttributeError
      end
    else Ok t.

  (** The program itself, the classes being those of gsp_matplotlib
      (gsp/io/command.py:202-303); [refs]: the objects it makes, in order. *)
  Fixpoint painted (t : gallery) (refs : list ref) (l : list action) : res gallery :=
    match l with
    | [] => Ok t
    | Session.New _ path _ _ sg args kw :: l' =>
        match refs with
        | [] => Err AttributeError
        | r :: refs' =>
            let* bound := bind_args sg args kw in
            let* t' := construct t r path bound in painted t' refs' l'
        end
    | Call _ _ _ _ _ _ :: l' => painted t refs l'
    end.
  (** The server, from what its classes were called with
      (gsp/io/command.py:409-455). *)
  Fixpoint repainted (t : gallery) (outs : list outcome) : res gallery :=
    match outs with
    | [] => Ok t
    | Built r path kws :: outs' => let* t' := construct t r path kws in repainted t' outs'
    | Called _ _ _ _ :: outs' => repainted t outs'
    end.
  (** The canvases as they are seen, without the objects. gsp_matplotlib/core/canvas.py:27-34. *)
  Definition seen_in (t : res gallery) : res (list (desk C)) := let* t := t in Ok (map snd t).
End Remote.
Arguments gallery : clear implicits.
