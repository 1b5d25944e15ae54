(** Vocabulary for what a session shows elsewhere. *)
From Verif Require Import Base Registry Convert Command CommandSpec Json Execute Session SessionSpec Measure Viewport Panes PanesSpec Remote.
Open Scope string_scope.

(** The parameters of the two constructors that are lengths or a resolution. *)
Definition lengths (path : string) : list string :=
  if String.eqb path "core.Canvas" then ["width"; "height"; "dpi"]
  else if String.eqb path "core.Viewport" then ["x"; "y"; "width"; "height"]
  else [].
(** Lengths are given as ints and floats, and no converter takes these to one of the
    annotated types (none of the library does). *)
Definition plain_lengths (E : cenv) (d : registry) (a : action) : Prop :=
  match a with
  | Session.New _ path _ _ sg args kw =>
      forall bound k v, bind_args sg args kw = Ok bound -> In k (lengths path) -> dget bound k = Some v ->
        (exists z, v = VInt z \/ v = VFloat z) /\
        forall anns a b, dget (annotations (s_params sg)) k = Some anns -> In a anns -> In b (mro E (class_of v)) ->
          conv_for E d b a = None
  | Call _ _ _ _ _ _ => True
  end.
(** Colours are understood the same after they were written to a file and read, as
    they were given or converted (and are not converted to protocol objects). *)
Definition plain_colors {C} (txt : string -> Z -> option jval) (pure : func -> value -> res value) (hue : value -> C)
  (a : action) : Prop :=
  match a with
  | Session.New _ path _ _ sg args kw =>
      forall bound v, path = "core.Viewport" -> bind_args sg args kw = Ok bound -> dget bound "color" = Some v ->
        is_object v = false /\ (forall f x, pure f v = Ok x -> is_object x = false) /\
        forall oidf x j, (x = v \/ exists f, pure f v = Ok x) -> encode txt oidf x = Ok j -> hue (decode j) = hue v
  | Call _ _ _ _ _ _ => True
  end.

(** The canvas of a viewport is given itself, not by its identifier. *)
Definition real_canvas (a : action) : Prop :=
  match a with
  | Session.New _ path _ _ sg args kw =>
      forall bound v, path = "core.Viewport" -> bind_args sg args kw = Ok bound -> dget bound "canvas" = Some v -> is_object v = true
  | Call _ _ _ _ _ _ => True
  end.

Section Spec.
  Context {C : Type} (num : Z -> Qc) (hue : value -> C).
  (** A length that was given. *)
  Definition given (b : dict string value) (k : string) : option coord :=
    match dget b k with
    | Some (VInt z) => Some (CInt z)
    | Some (VFloat z) => Some (CFloat (num z))
    | _ => None
    end.
  Definition resolution (b : dict string value) : option Qc :=
    match dget b "dpi" with
    | Some (VInt z) => Some (zq z)
    | Some (VFloat z) => Some (num z)
    | _ => None
    end.
  (** The viewport a step makes on the canvas [r]. *)
  Definition viewport_on (r : ref) (a : action) : list (Panes.act C) :=
    match a with
    | Session.New _ path _ _ sg args kw =>
        if String.eqb path "core.Viewport" then
          match bind_args sg args kw with
          | Ok b =>
              match dget b "canvas", given b "x", given b "y", given b "width", given b "height", dget b "color" with
              | Some (VObj _ k), Some x, Some y, Some w, Some h, Some color =>
                  if Nat.eqb k r then [Panes.New x y w h (hue color)] else []
              | _, _, _, _, _, _ => []
              end
          | Err _ => []
          end
        else []
    | Call _ _ _ _ _ _ => []
    end.
  (** Those of a program, in order. *)
  Definition viewports_on (r : ref) (l : list action) : list (Panes.act C) := flat_map (viewport_on r) l.
  (** The canvases of a program, in order, with the arguments they are made with.
      [refs]: the objects it makes. *)
  Fixpoint canvases (refs : list ref) (l : list action) : list (ref * dict string value) :=
    match l, refs with
    | Session.New _ path _ _ sg args kw :: l', r :: refs' =>
        match bind_args sg args kw with
        | Ok b => if String.eqb path "core.Canvas" then (r, b) :: canvases refs' l' else canvases refs' l'
        | Err _ => canvases refs' l'
        end
    | Call _ _ _ _ _ _ :: l', _ => canvases refs l'
    | _, _ => []
    end.
  (** The canvas [r], made with these arguments, and the viewports the program makes on it. *)
  Definition as_asked (l : list action) (r : ref) (b : dict string value) (d : desk C) : Prop :=
    exists w h dpi f, given b "width" = Some w /\ given b "height" = Some h /\ resolution b = Some dpi /\
      new_canvas w h dpi = Ok f /\ Panes.acts (bare f (fun _ => 1%Qc)) (viewports_on r l) = Ok d.
End Spec.

(** For the examples: a canvas, two viewports on it, another canvas, a viewport on
    that one, the first canvas rendered. *)
Definition canvas_of (w h : Z) : action :=
  Session.New "Canvas" "core.Canvas" 0 0
    (mkS [mkP "width" None (Some ["int"]); mkP "height" None (Some ["int"]); mkP "dpi" None (Some ["float"])] [])
    [VInt w; VInt h] [("dpi", VFloat 100)].
Definition viewport_of (r : ref) (x y w h : value) (color : string) : action :=
  Session.New "Viewport" "core.Viewport" 0 0
    (mkS [mkP "canvas" None (Some ["Canvas"]); mkP "x" None (Some ["Transform"; "int"; "float"]); mkP "y" None (Some ["Transform"; "int"; "float"]);
          mkP "width" None (Some ["Transform"; "int"; "float"]); mkP "height" None (Some ["Transform"; "int"; "float"]); mkP "color" None (Some ["Color"])] [])
    [VObj "Canvas" r; x; y; w; h] [("color", VStr color)].
Definition two_canvases : list action :=
  [canvas_of 512 256; viewport_of 0%nat (VInt 0) (VInt 0) (VInt 100) (VFloat 1) "red";
   viewport_of 0%nat (VInt 100) (VInt 0) (VInt 412) (VFloat 1) "green";
   canvas_of 100 100; viewport_of 3%nat (VFloat 0) (VFloat 0) (VFloat 1) (VFloat 1) "blue"; a_render 0%nat].
(** The name of a colour, before and after the conversion of SessionSpec. *)
Definition named (v : value) : string :=
  match v with VStr s => s | VSeq (VStr s :: _) => s | _ => "" end.
