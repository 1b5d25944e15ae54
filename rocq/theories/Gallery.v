(** Visuals of all kinds sent through a session: what a program with canvases, viewports,
    buffers and visuals shows, and what a server shows that loads its file.
    gsp_matplotlib/core/canvas.py, gsp_matplotlib/core/viewport.py,
    gsp_matplotlib/core/buffer.py, gsp/visual/visual.py, and in gsp/visual and
    gsp_matplotlib/visual: points.py, pixels.py, markers.py, paths.py, polygons.py; called
    by the program (gsp/io/command.py:202-303) or for a command
    (gsp/io/command.py:409-455).

    Simplifications: those of Relay.v.  Segments show nothing (the backend records them as
    points, C81).  Positions that are no array or buffer are refused, and so are lists given
    as indices (they cannot be saved, C71).  The outlines of markers are not computed. *)
From Coq Require Import Reals.
From Verif Require Import Base Registry Convert Command Base64 Execute Session Measure Viewport Panes Glm Vec Render Picture Outline Remote Relay.
Open Scope string_scope.

(** A value that is no array as eval_variable gives it, gsp/visual/visual.py:80-87: None, an
    int, or another one as Render.v has attributes. *)
Inductive given := Absent | Int (z : Z) | Else (a : attr).
(** A variable of a visual: an array with its length, another value, or an object that is
    not a buffer.  gsp/visual/visual.py:75-87. *)
Inductive var := Array (A : res arr) (n : Z) | Plain (g : given) | Wrong.

(** The parameters of the visuals: gsp/visual/points.py:45-49, gsp/visual/pixels.py:39-40,
    gsp/visual/markers.py:49-56, gsp/visual/paths.py:110-116,
    gsp/visual/polygons.py:106-112. *)
Definition parameters (path : string) : option (list string) :=
  if String.eqb path "visual.Points" then Some ["positions"; "sizes"; "fill_colors"; "line_colors"; "line_widths"]
  else if String.eqb path "visual.Pixels" then Some ["positions"; "colors"]
  else if String.eqb path "visual.Markers" then Some ["positions"; "types"; "sizes"; "axis"; "angles"; "fill_colors"; "line_colors"; "line_widths"]
  else if String.eqb path "visual.Paths" then Some ["positions"; "indices"; "line_colors"; "line_widths"; "line_styles"; "line_joins"; "line_caps"]
  else if String.eqb path "visual.Polygons" then Some ["positions"; "indices"; "fill_colors"; "line_colors"; "line_widths"; "line_styles"; "line_joins"]
  else None.
(** Where reshape(-1,3) is applied: gsp_matplotlib/visual/points.py:64,
    gsp_matplotlib/visual/markers.py:104, gsp_matplotlib/visual/paths.py:78,
    gsp_matplotlib/visual/polygons.py:74.  In gsp_matplotlib/visual/pixels.py:70 it is a
    comment. *)
Definition reshaped (path k : string) : bool := (String.eqb k "positions" && negb (String.eqb path "visual.Pixels"))%bool.

Section Gallery.
  (** - [num], [hue], [arrays], [unpack]: as in Relay.v;
      - [look]: a value that is no array, as eval_variable gives it
        (gsp/visual/visual.py:80-87);
      - [paint]: what a visual of a class draws in a viewport with its variables;
        [paint_all] below for those of gsp_matplotlib/visual. *)
  Context {C P : Type} (num : Z -> Qc) (hue : Command.value -> C) (arrays : string -> Z -> option arr)
          (unpack : Command.value -> list N -> res (Vec.kind * list Vec.num)) (look : Command.value -> given)
          (paint : string -> Viewport.viewport -> dict string var -> res P).

  (** What objects are, as in Relay.v: canvases, viewports, buffers, visuals with their
      class and variables.  gsp_matplotlib/core/canvas.py:27-34,
      gsp_matplotlib/core/viewport.py:24-29, gsp_matplotlib/core/buffer.py:19-43,
      gsp/visual/visual.py:17-28. *)
  Inductive entity :=
  | Wall (d : desk C) (drawn : list ((nat * nat) * P))
  | Window (canvas pane : nat)
  | Memory (A : res arr) (count : Z)
  | Figure (path : string) (vars : dict string var)
  | Blank.
  (** The objects made so far, in order. gsp/object.py:64-69. *)
  Definition hall := list (ref * entity).
  (** An object and its place. gsp/io/command.py:425-438. *)
  Fixpoint located (t : hall) (r : ref) (n : nat) : option (nat * entity) :=
    match t with
    | [] => None
    | (k, x) :: t' => if Nat.eqb k r then Some (n, x) else located t' r (S n)
    end.
  (** An object changed, gsp_matplotlib/core/viewport.py:29 and gsp_matplotlib/visual/paths.py:58-59. *)
  Fixpoint replaced (t : hall) (n : nat) (x : entity) : hall :=
    match t, n with
    | [], _ => []
    | (k, _) :: t', O => (k, x) :: t'
    | kx :: t', S m => kx :: replaced t' m x
    end.
  (** The object at a place (gsp/object.py:64-69). *)
  Definition placed_at (t : hall) (n : nat) : option entity := option_map snd (nth_error t n).

  (** Buffer.__init__ and __array__, gsp_matplotlib/core/buffer.py:14-43, as in Relay.v. *)
  Definition new_memory (count dtype data : Command.value) : res entity :=
    let* n := match count with VInt z => Ok z | _ => Err TypeError end in
    match data with
    | VBytes b => Ok (Memory (let* kl := unpack dtype b in Ok (mkA (fst kl) (Flat (snd kl)))) n)
    | VStr s => let* b := b64decode s in Ok (Memory (let* kl := unpack dtype b in Ok (mkA (fst kl) (Flat (snd kl)))) n)
    | VNone => Ok Blank
    | _ => Err TypeError
    end.

  (** An array or a buffer, with its length (gsp/visual/visual.py:78-79); [None] for other
      values. *)
  Definition array_at (t : hall) (v : Command.value) : option (res arr * Z) :=
    match v with
    | VAtom c z => match arrays c z with Some V => Some (Ok V, Z.of_nat (rows V)) | None => None end
    | VObj _ k => match located t k 0 with Some (_, Memory A n) => Some (A, n) | _ => None end
    | _ => None
    end.
  (** eval_variable, gsp/visual/visual.py:75-87, with the reshape that follows it for
      positions. *)
  Definition var_at (t : hall) (path k : string) (v : Command.value) : var :=
    match array_at t v with
    | Some (A, n) => Array (if reshaped path k then let* V := A in Ok (flat V) else A) n
    | None => match v with VObj _ _ => Wrong | _ => Plain (look v) end
    end.
  (** self._in_variables, gsp/visual/paths.py:141-150. *)
  Fixpoint variables (t : hall) (path : string) (kws : dict string Command.value) (ks : list string) : res (dict string var) :=
    match ks with
    | [] => Ok []
    | k :: ks' => let* v := arg kws k in let* l := variables t path kws ks' in Ok ((k, var_at t path k v) :: l)
    end.
  (** len of a variable, for np.empty: gsp/visual/points.py:85-92, gsp/visual/paths.py:157-167. *)
  Definition length_of (x : option var) : res Z :=
    match x with
    | Some (Array _ n) => if (n <? 0)%Z then Err ValueError else Ok n
    | _ => Err TypeError
    end.
  (** The number of paths, gsp/visual/paths.py:160-167 and gsp/visual/polygons.py:155-162. *)
  Definition paths_of (n : Z) (x : option var) : res Z :=
    match x with
    | Some (Plain (Int z)) =>
        if (z =? 0)%Z then Err ZeroDivisionError else if (n / z <? 0)%Z then Err ValueError else Ok (n / z)%Z
    | x => length_of x
    end.
  (** What the constructors ask of the variables: gsp/visual/points.py:85-92,
      gsp/visual/pixels.py:69-72, gsp/visual/markers.py:101-111, gsp/visual/paths.py:157-173,
      gsp/visual/polygons.py:152-168. *)
  Definition sized (path : string) (vars : dict string var) : res unit :=
    let* n := length_of (dget vars "positions") in
    if (String.eqb path "visual.Paths" || String.eqb path "visual.Polygons")%bool
    then let* _ := paths_of n (dget vars "indices") in Ok tt else Ok tt.
  (** generate_markers is called with the positions as they were given, and with an axis it
      takes positions[i], which a Buffer does not have:
      gsp_matplotlib/visual/markers.py:30, 38-39 and 56-57; gsp/core/buffer.py:12-60.
      Simplification: other errors there are those of [paint]. *)
  Definition aligned (path : string) (kws : dict string Command.value) (vars : dict string var) : res unit :=
    if String.eqb path "visual.Markers" then
      match dget vars "axis", dget kws "positions", dget vars "positions" with
      | Some (Plain Absent), _, _ => Ok tt
      | _, Some (VObj _ _), Some (Array _ n) => if (0 <? n)%Z then Err TypeError else Ok tt
      | _, _, _ => Ok tt
      end
    else Ok tt.
  (** The constructors: gsp/visual/points.py:74-92 and the others as above. *)
  Definition new_figure (t : hall) (path : string) (ks : list string) (kws : dict string Command.value) : res entity :=
    let* vars := variables t path kws ks in
    let* _ := sized path vars in
    let* _ := aligned path kws vars in
    Ok (Figure path vars).

  (** The bodies of the constructors, as in Relay.v:
      gsp_matplotlib/core/canvas.py:15-34, gsp_matplotlib/core/viewport.py:15-46,
      gsp_matplotlib/core/buffer.py:14-27, and those of the visuals. *)
  Definition construct (t : hall) (r : ref) (path : string) (kws : dict string Command.value) : res hall :=
    if String.eqb path "core.Canvas" then
      let* w := arg kws "width" in let* w := as_coord num w in
      let* h := arg kws "height" in let* h := as_coord num h in
      let* dpi := arg kws "dpi" in let* dpi := as_number num dpi in
      let* f := new_canvas w h dpi in
      Ok (t ++ [(r, Wall (bare f (fun _ => 1%Qc)) [])])%list
    else if String.eqb path "core.Viewport" then
      let* c := arg kws "canvas" in
      let* x := arg kws "x" in let* x := as_coord num x in
      let* y := arg kws "y" in let* y := as_coord num y in
      let* w := arg kws "width" in let* w := as_coord num w in
      let* h := arg kws "height" in let* h := as_coord num h in
      let* color := arg kws "color" in
      match c with
      | VObj _ k =>
          match located t k 0 with
          | Some (n, Wall d drawn) =>
              let* d' := act_on d (Panes.New x y w h (hue color)) in
              Ok (replaced t n (Wall d' drawn) ++ [(r, Window n (length (d_panes d)))])%list
          | _ => Err AttributeError
          end
      | _ => Err AttributeError
      end
    else if String.eqb path "core.Buffer" then
      let* count := arg kws "count" in let* dtype := arg kws "dtype" in let* data := arg kws "data" in
      let* x := new_memory count dtype data in Ok (t ++ [(r, x)])%list
    else match parameters path with
         | Some ks => let* x := new_figure t path ks kws in Ok (t ++ [(r, x)])%list
         | None => Ok (t ++ [(r, Blank)])%list
         end.

  (** The collection of a visual in a viewport: changed if there is one, else added.
      gsp_matplotlib/visual/paths.py:51-59. *)
  Fixpoint hung (l : list ((nat * nat) * P)) (k : nat * nat) (x : P) : list ((nat * nat) * P) :=
    match l with
    | [] => [(k, x)]
    | (k', x') :: l' => if (Nat.eqb (fst k') (fst k) && Nat.eqb (snd k') (snd k))%bool then (k, x) :: l' else (k', x') :: hung l' k x
    end.
  (** The methods render: gsp_matplotlib/visual/points.py:28-100,
      gsp_matplotlib/visual/pixels.py:33-86, gsp_matplotlib/visual/markers.py:68-156,
      gsp_matplotlib/visual/paths.py:31-147, gsp_matplotlib/visual/polygons.py:31-158; other
      methods change nothing that is shown (gsp_matplotlib/core/buffer.py:29-35). *)
  Definition perform (t : hall) (r : ref) (m : string) (kws : dict string Command.value) : res hall :=
    match located t r 0 with
    | Some (i, Figure path vars) =>
        if String.eqb m "render" then
          let* v := arg kws "viewport" in
          let* _ := no_matrix kws "model" in let* _ := no_matrix kws "view" in let* _ := no_matrix kws "proj" in
          match v with
          | VObj _ k =>
              match located t k 0 with
              | Some (_, Window c p) =>
                  match placed_at t c with
                  | Some (Wall d drawn) =>
                      match nth_error (d_panes d) p with
                      | Some a =>
                          let* x := paint path (view (d_fig d) a) vars in
                          Ok (replaced t c (Wall d (hung drawn (i, p) x)))
                      | None => Err AttributeError
                      end
                  | _ => Err AttributeError
                  end
              | _ => Err AttributeError
              end
          | _ => Err AttributeError
          end
        else Ok t
    | _ => Ok t
    end.

  (** The program itself, the classes being those of gsp_matplotlib
      (gsp/io/command.py:202-303); [refs]: the objects it makes, in order. *)
  Fixpoint enacted (t : hall) (refs : list ref) (l : list action) : res hall :=
    match l with
    | [] => Ok t
    | Session.New _ path _ _ sg args kw :: l' =>
        match refs with
        | [] => Err AttributeError
        | r :: refs' =>
            let* bound := bind_args sg args kw in
            let* t' := construct t r path bound in enacted t' refs' l'
        end
    | Call r _ m sg args kw :: l' =>
        let* bound := bind_args sg args kw in
        let* t' := perform t r m bound in enacted t' refs l'
    end.
  (** The server, from what its classes and methods were called with
      (gsp/io/command.py:409-455). *)
  Fixpoint reenacted (t : hall) (outs : list outcome) : res hall :=
    match outs with
    | [] => Ok t
    | Built r path kws :: outs' => let* t' := construct t r path kws in reenacted t' outs'
    | Called r m kws _ :: outs' => let* t' := perform t r m kws in reenacted t' outs'
    end.
  (** The canvases as they are seen: with their viewports and what is drawn in them, without
      the objects. gsp_matplotlib/core/canvas.py:27-34. *)
  Definition walls (t : hall) : list (desk C * list ((nat * nat) * P)) :=
    flat_map (fun kx => match snd kx with Wall d l => [(d, l)] | _ => [] end) t.
  (** The same, or the error: gsp_matplotlib/core/canvas.py:27-34. *)
  Definition exhibit (t : res hall) : res (list (desk C * list ((nat * nat) * P))) := let* t := t in Ok (walls t).
End Gallery.
Arguments entity : clear implicits.
Arguments hall : clear implicits.

(** ** What the visuals draw *)

(** The shape of a marker: its type, its angle and, with an axis, the position it is turned
    along.  gsp_matplotlib/visual/markers.py:39-66. *)
Definition shape : Type := Z * Z * option (list Vec.num).
(** What a visual draws: pixels and attributes of points and pixels, shapes and pixels of
    markers, corners of paths and polygons.  gsp_matplotlib/visual/points.py:71-97,
    gsp_matplotlib/visual/pixels.py:73-82, gsp_matplotlib/visual/markers.py:126-153,
    gsp_matplotlib/visual/paths.py:113-144, gsp_matplotlib/visual/polygons.py:109-155. *)
Inductive picture :=
| Spots (l : list item)
| Marks (l : list ((shape * option (R * R)) * list (option (list Z))))
| Lines (l : list (list (option (R * R)) * list (option (list Z)))).

Section Paint.
  (** - [code], [argsort]: as in Relay.v;
      - [whole]: the value of an int of an array, gsp_matplotlib/visual/paths.py:95-96
        (simplification: without wrap-around). *)
  Context (code : Vec.num -> Z) (whole : Vec.num -> Z) (argsort : list Vec.num -> list nat).

  (** A variable that must be there. gsp/visual/visual.py:58-63. *)
  Definition variable (vars : dict string var) (k : string) : res var :=
    match dget vars k with Some x => Ok x | None => Err IndexError end.
  (** A number or a colour that is no array; None: the default of matplotlib, here [Row []].
      gsp_matplotlib/visual/paths.py:117-144. *)
  Definition plain_attr (g : given) : attr := match g with Absent => Row [] | Int z => Whole z | Else a => a end.
  (** Sizes and widths: gsp_matplotlib/visual/points.py:87-97, gsp_matplotlib/visual/paths.py:131-144. *)
  Definition numbers (x : var) : res attr :=
    match x with Array A _ => let* V := A in numbers_of code V | Plain g => Ok (plain_attr g) | Wrong => Err TypeError end.
  (** Colours: gsp_matplotlib/visual/points.py:73-85, gsp_matplotlib/visual/paths.py:116-129. *)
  Definition colors (x : var) : res attr :=
    match x with Array A _ => let* V := A in colors_of code V | Plain g => Ok (plain_attr g) | Wrong => Err TypeError end.
  (** The positions, and how many they were when the visual was made:
      gsp_matplotlib/visual/paths.py:77. *)
  Definition positions (vars : dict string var) : res (arr * Z) :=
    let* x := variable vars "positions" in
    match x with Array A n => let* V := A in Ok (V, n) | _ => Err TypeError end.
  (** An array of [m] rows stored in one of [count] rows: gsp/visual/visual.py:45.  None is an
      array with one axis, which no number of rows has. *)
  Definition filled (count : Z) (m : nat) : res unit :=
    if (negb (m =? 0)%nat && ((Z.of_nat m =? count)%Z || (m =? 1)%nat))%bool then Ok tt else Err ValueError.
  (** types[i] or types, angles[i] or angles: gsp_matplotlib/visual/markers.py:40-47. *)
  Definition each (x : var) (i : nat) : res Z :=
    match x with
    | Array A _ =>
        let* V := A in
        match a_data V with
        | Flat l => match nth_error l i with Some z => Ok (code z) | None => Err ValueError end
        | _ => Err ValueError
        end
    | Plain (Int z) => Ok z
    | Plain (Else (Whole z)) => Ok z
    | _ => Err ValueError
    end.
  (** generate_markers, gsp_matplotlib/visual/markers.py:32-66, for [rs] the positions that are
      left. *)
  Fixpoint shapes (types angles axis : var) (i : nat) (rs : list (list Vec.num)) : res (list shape) :=
    match rs with
    | [] => Ok []
    | r :: rs' =>
        let* t := each types i in
        let* a := each angles i in
        let* l := shapes types angles axis (S i) rs' in
        Ok ((t, a, match axis with Plain Absent => None | _ => Some r end) :: l)
    end.
  (** The sizes of the paths: gsp_matplotlib/visual/paths.py:82-104. *)
  Definition indices_of (x : var) : res indices :=
    match x with
    | Plain (Int z) => Ok (Uniform z)
    | Array A _ =>
        let* V := A in
        match a_data V with Flat l => Ok (Sizes (fun z => z) (map whole l)) | _ => Err TypeError end
    | _ => Err TypeError
    end.
  (** The line cap, gsp_matplotlib/visual/paths.py:52-56 with gsp/core/types.py:230-233. *)
  Definition cap (x : var) : res unit :=
    match x with
    | Plain (Int z) => if ((z =? 1) || (z =? 2) || (z =? 3))%Z then Ok tt else Err KeyError
    | Plain _ => Err KeyError
    | _ => Err TypeError
    end.

  (** gsp_matplotlib/visual/points.py:62-97, as in Relay.v. *)
  Definition paint_points (v : Viewport.viewport) (vars : dict string var) : res picture :=
    let* p := positions vars in
    let* f := variable vars "fill_colors" in let* e := variable vars "line_colors" in
    let* w := variable vars "line_widths" in let* s := variable vars "sizes" in
    let* l := dots argsort v (Ok (fst p)) (snd p) (numbers s) (colors f) (colors e) (numbers w) in
    Ok (Spots l).
  (** gsp_matplotlib/visual/pixels.py:68-82. *)
  Definition paint_pixels (v : Viewport.viewport) (vars : dict string var) : res picture :=
    let* p := positions vars in
    let* A := placed (fst p) (transform_of eye eye eye) in
    let* rs := rows_of A in
    let* _ := if ((Z.of_nat (length rs) =? snd p)%Z || (length rs =? 1)%nat)%bool then Ok tt else Err ValueError in
    let* c := variable vars "colors" in let* c := colors c in
    let* l := pixels argsort v (fst p) eye eye eye c in
    Ok (Spots l).
  (** gsp_matplotlib/visual/markers.py:102-153. *)
  Definition paint_markers (v : Viewport.viewport) (vars : dict string var) : res picture :=
    let* p := positions vars in
    let* A := placed_points (fst p) eye in
    let* rs := rows_of A in
    let* types := variable vars "types" in let* angles := variable vars "angles" in let* axis := variable vars "axis" in
    let* ss := shapes types angles axis 0 rs in
    let* _ := kept (snd p) (fst p) in
    let* f := variable vars "fill_colors" in let* f := colors f in
    let* e := variable vars "line_colors" in let* e := colors e in
    let* w := variable vars "line_widths" in let* w := numbers w in
    let* s := variable vars "sizes" in let* s := numbers s in
    let* l := markers argsort v (fst p) eye eye eye ss f e w s in
    Ok (Marks l).
  (** gsp_matplotlib/visual/paths.py:75-144 and gsp_matplotlib/visual/polygons.py:71-155, with
      the attributes [attrs]. *)
  Definition paint_lines (v : Viewport.viewport) (vars : dict string var) (attrs : list (res attr)) : res picture :=
    let* p := positions vars in
    let* A := placed_points (fst p) (transform_of eye eye eye) in
    let* rs := rows_of A in
    let* x := variable vars "indices" in
    let* i := indices_of x in
    let* gs := group rs i in
    let* _ := kept (snd p) (fst p) in
    let* n := paths_of (snd p) (Some x) in
    let* _ := filled n (length gs) in
    let* l := (fix all l := match l with [] => Ok [] | a :: l' => let* a := a in let* l' := all l' in Ok (a :: l') end) attrs in
    let* l := outlines argsort v (fst p) eye eye eye i l in
    Ok (Lines l).
  (** The attributes of the variables named: gsp_matplotlib/visual/paths.py:117-144. *)
  Definition attr_at (f : var -> res attr) (vars : dict string var) (k : string) : res attr :=
    let* x := variable vars k in f x.
  (** The methods render of gsp_matplotlib/visual/points.py:28, pixels.py:33, markers.py:68,
      paths.py:31 and polygons.py:31. *)
  Definition paint_all (path : string) (v : Viewport.viewport) (vars : dict string var) : res picture :=
    if String.eqb path "visual.Points" then paint_points v vars
    else if String.eqb path "visual.Pixels" then paint_pixels v vars
    else if String.eqb path "visual.Markers" then paint_markers v vars
    else if String.eqb path "visual.Paths" then
      let* c := variable vars "line_caps" in let* _ := cap c in
      paint_lines v vars [attr_at colors vars "line_colors"; attr_at numbers vars "line_widths"]
    else if String.eqb path "visual.Polygons" then
      paint_lines v vars [attr_at colors vars "fill_colors"; attr_at colors vars "line_colors"; attr_at numbers vars "line_widths"]
    else Err TypeError.
End Paint.
