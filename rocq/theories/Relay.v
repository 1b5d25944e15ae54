(** Points sent through a session: what a program with canvases, viewports, buffers and
    points shows, and what a server shows that loads its file.
    gsp_matplotlib/core/canvas.py, gsp_matplotlib/core/viewport.py, gsp_matplotlib/core/buffer.py,
    gsp_matplotlib/visual/points.py, gsp/visual/points.py and gsp/visual/visual.py, called
    by the program (gsp/io/command.py:202-303) or for a command
    (gsp/io/command.py:409-455).

    Simplifications: those of Session.v, Remote.v and Picture.v.  The memory of an array is
    the bytes it has when the session is saved (gsp/io/json.py:15-18), also for the
    program.  Buffers without data hold nothing.  Matrices given to render are refused (they
    cannot be saved, C71).  Other visuals, List and Data show nothing. *)
From Coq Require Import Reals.
From Verif Require Import Base Registry Convert Command Base64 Execute Session Measure Viewport Panes Glm Vec Render Picture Remote.
Open Scope string_scope.

(** Numbers, as they are in gsp_matplotlib/visual/points.py:62-97. *)
Section Relay.
  (** - [num], [hue]: the value of a float and colours, as in Remote.v;
      - [arrays]: the numpy arrays of the program, by the class and the name of the value;
      - [unpack]: np.frombuffer, gsp_matplotlib/core/buffer.py:40, for a dtype or its text;
      - [code]: a number of an attribute, as Render.v has them;
      - [look]: an attribute that is no array, as eval_variable gives it
        (gsp/visual/visual.py:80-87);
      - [argsort]: np.argsort, gsp_matplotlib/visual/points.py:70. *)
  Context {C : Type} (num : Z -> Qc) (hue : Command.value -> C) (arrays : string -> Z -> option arr)
          (unpack : Command.value -> list N -> res (Vec.kind * list Vec.num)) (code : Vec.num -> Z) (look : Command.value -> attr)
          (argsort : list Vec.num -> list nat).

  (** An item drawn: the pixel and the attributes, gsp_matplotlib/visual/points.py:71-97. *)
  Definition item : Type := option (R * R) * list (option (list Z)).
  (** What objects are:
      - a canvas with its viewports, and for each visual and viewport of it what was drawn
        last, in the order of the first time: gsp_matplotlib/core/canvas.py:27-34,
        gsp_matplotlib/visual/points.py:40-45;
      - a viewport: which object is its canvas, which of its viewports it is,
        gsp_matplotlib/core/viewport.py:24-29;
      - a buffer: its array and its length, gsp_matplotlib/core/buffer.py:19-43;
      - points: the numbers of the positions, their length and the attributes,
        gsp/visual/points.py:74-92. *)
  Inductive thing :=
  | Sheet (d : desk C) (drawn : list ((nat * nat) * list item))
  | Frame (canvas pane : nat)
  | Store (A : res arr) (count : Z)
  | Dots (P : res arr) (count : Z) (size face edge width : res attr)
  | Nothing.
  (** The objects made so far, in order. gsp/object.py:64-69. *)
  Definition stage := list (ref * thing).
  (** An object and its place. gsp/io/command.py:425-438. *)
  Fixpoint found (t : stage) (r : ref) (n : nat) : option (nat * thing) :=
    match t with
    | [] => None
    | (k, x) :: t' => if Nat.eqb k r then Some (n, x) else found t' r (S n)
    end.
  (** An object changed, gsp_matplotlib/core/viewport.py:29 and gsp_matplotlib/visual/points.py:41-45. *)
  Fixpoint changed (t : stage) (n : nat) (x : thing) : stage :=
    match t, n with
    | [], _ => []
    | (k, _) :: t', O => (k, x) :: t'
    | kx :: t', S m => kx :: changed t' m x
    end.
  (** The object at a place (gsp/object.py:64-69). *)
  Definition place (t : stage) (n : nat) : option thing := option_map snd (nth_error t n).

  (** len(array): gsp/visual/points.py:85 and gsp_matplotlib/visual/points.py:76.
      Simplification: arrays without axes have length 0 (Python raises TypeError). *)
  Definition rows (V : arr) : nat :=
    match a_data V with Flat l => length l | Vec.Rows _ l => length l | Other (n :: _) _ => n | Other [] _ => 0%nat end.
  (** The numbers in order, all that reshape(-1,3) reads: gsp_matplotlib/visual/points.py:64. *)
  Definition flat (V : arr) : arr := mkA (a_kind V) (Flat (elements (a_data V))).

  (** Buffer.__init__, gsp_matplotlib/core/buffer.py:14-27, and what __array__ gives later,
      gsp_matplotlib/core/buffer.py:37-43. *)
  Definition new_buffer (count dtype data : Command.value) : res thing :=
    let* n := match count with VInt z => Ok z | _ => Err TypeError end in
    match data with
    | VBytes b => Ok (Store (let* kl := unpack dtype b in Ok (mkA (fst kl) (Flat (snd kl)))) n)
    | VStr s => let* b := b64decode s in Ok (Store (let* kl := unpack dtype b in Ok (mkA (fst kl) (Flat (snd kl)))) n)
    | VNone => Ok Nothing
    | _ => Err TypeError
    end.

  (** A variable that is an array or a buffer, with its length (gsp/visual/visual.py:78-79);
      [None] for other values. *)
  Definition array_of (t : stage) (v : Command.value) : option (res arr * Z) :=
    match v with
    | VAtom c z => match arrays c z with Some V => Some (Ok V, Z.of_nat (rows V)) | None => None end
    | VObj _ k => match found t k 0 with Some (_, Store A n) => Some (A, n) | _ => None end
    | _ => None
    end.
  (** Positions: len(positions) is asked at once, gsp/visual/points.py:85-92. *)
  Definition positions_of (t : stage) (v : Command.value) : res (res arr * Z) :=
    match array_of t v with
    | Some (A, n) => if (n <? 0)%Z then Err ValueError else Ok ((let* V := A in Ok (flat V)), n)
    | None => Err TypeError
    end.
  (** Sizes and widths as arrays, gsp_matplotlib/visual/points.py:87-97. *)
  Definition numbers_of (V : arr) : res attr :=
    match a_data V with
    | Flat l => Ok (Rows (map (fun x => [code x]) l))
    | Vec.Rows _ l => Ok (Rows (map (map code) l))
    | Other _ _ => Err ValueError
    end.
  (** Colours as arrays: one colour, or rows of three or four numbers; matplotlib refuses
      others.  gsp_matplotlib/visual/points.py:75-85. *)
  Definition colors_of (V : arr) : res attr :=
    match a_data V with
    | Flat l => if ((length l =? 3) || (length l =? 4))%nat then Ok (Row (map code l)) else Err ValueError
    | Vec.Rows c l => if ((c =? 3) || (c =? 4))%nat then Ok (Rows (map (map code) l)) else Err ValueError
    | Other _ _ => Err ValueError
    end.
  (** eval_variable, gsp/visual/visual.py:75-87.  Objects that are no buffers are refused
      (simplification: when they are drawn). *)
  Definition attr_of (t : stage) (as_attr : arr -> res attr) (v : Command.value) : res attr :=
    match array_of t v with
    | Some (A, _) => let* V := A in as_attr V
    | None => match v with VObj _ _ => Err TypeError | _ => Ok (look v) end
    end.
  (** Points.__init__, gsp/visual/points.py:74-92. *)
  Definition new_points (t : stage) (kws : dict string Command.value) : res thing :=
    let* p := arg kws "positions" in let* P := positions_of t p in
    let* size := arg kws "sizes" in let* face := arg kws "fill_colors" in
    let* edge := arg kws "line_colors" in let* width := arg kws "line_widths" in
    Ok (Dots (fst P) (snd P) (attr_of t numbers_of size) (attr_of t colors_of face)
             (attr_of t colors_of edge) (attr_of t numbers_of width)).

  (** The bodies of the constructors, as in Remote.v, with Buffer and Points:
      gsp_matplotlib/core/canvas.py:15-34, gsp_matplotlib/core/viewport.py:15-46,
      gsp_matplotlib/core/buffer.py:14-27, gsp/visual/points.py:74-92. *)
  Definition build (t : stage) (r : ref) (path : string) (kws : dict string Command.value) : res stage :=
    if String.eqb path "core.Canvas" then
      let* w := arg kws "width" in let* w := as_coord num w in
      let* h := arg kws "height" in let* h := as_coord num h in
      let* dpi := arg kws "dpi" in let* dpi := as_number num dpi in
      let* f := new_canvas w h dpi in
      Ok (t ++ [(r, Sheet (bare f (fun _ => 1%Qc)) [])])%list
    else if String.eqb path "core.Viewport" then
      let* c := arg kws "canvas" in
      let* x := arg kws "x" in let* x := as_coord num x in
      let* y := arg kws "y" in let* y := as_coord num y in
      let* w := arg kws "width" in let* w := as_coord num w in
      let* h := arg kws "height" in let* h := as_coord num h in
      let* color := arg kws "color" in
      match c with
      | VObj _ k =>
          match found t k 0 with
          | Some (n, Sheet d drawn) =>
              let* d' := act_on d (Panes.New x y w h (hue color)) in
              Ok (changed t n (Sheet d' drawn) ++ [(r, Frame n (length (d_panes d)))])%list
          | _ => Err AttributeError
          end
      | _ => Err AttributeError
      end
    else if String.eqb path "core.Buffer" then
      let* count := arg kws "count" in let* dtype := arg kws "dtype" in let* data := arg kws "data" in
      let* x := new_buffer count dtype data in Ok (t ++ [(r, x)])%list
    else if String.eqb path "visual.Points" then
      let* x := new_points t kws in Ok (t ++ [(r, x)])%list
    else Ok (t ++ [(r, Nothing)])%list.

  (** np.eye(4), gsp/visual/visual.py:25-28. *)
  Definition eye : mat := Mat (V4 1 0 0 0) (V4 0 1 0 0) (V4 0 0 1 0) (V4 0 0 0 1).
  (** [out[...] = value] for rows of three numbers: gsp/visual/visual.py:45, called at
      gsp_matplotlib/visual/points.py:72. *)
  Definition kept (count : Z) (P : arr) : res unit :=
    let m := (length (elements (a_data P)) / 3)%nat in
    if ((Z.of_nat m =? count)%Z || (m =? 1)%nat)%bool then Ok tt else Err ValueError.
  (** The collection of a visual in a viewport: changed if there is one, else added.
      gsp_matplotlib/visual/points.py:40-45. *)
  Fixpoint drawn_in (l : list ((nat * nat) * list item)) (k : nat * nat) (x : list item) : list ((nat * nat) * list item) :=
    match l with
    | [] => [(k, x)]
    | (k', x') :: l' => if (Nat.eqb (fst k') (fst k) && Nat.eqb (snd k') (snd k))%bool then (k, x) :: l' else (k', x') :: drawn_in l' k x
    end.
  (** What is drawn of points, gsp_matplotlib/visual/points.py:62-97 with identity
      matrices. *)
  Definition dots (v : Viewport.viewport) (P : res arr) (count : Z) (size face edge width : res attr) : res (list item) :=
    let* V := P in
    let* _ := as_vec 3 None V in
    let* _ := kept count V in
    let* f := face in let* e := edge in let* w := width in let* s := size in
    points argsort v V eye eye eye f e w s.
  (** A parameter of render that is a matrix, gsp/visual/visual.py:111-116. *)
  Definition no_matrix (kws : dict string Command.value) (k : string) : res unit :=
    match dget kws k with Some VNone | None => Ok tt | Some _ => Err TypeError end.
  (** Points.render, gsp_matplotlib/visual/points.py:28-100; other methods change nothing
      that is shown (Buffer.set_data: gsp_matplotlib/core/buffer.py:29-35). *)
  Definition invoke (t : stage) (r : ref) (m : string) (kws : dict string Command.value) : res stage :=
    match found t r 0 with
    | Some (i, Dots P count size face edge width) =>
        if String.eqb m "render" then
          let* v := arg kws "viewport" in
          let* _ := no_matrix kws "model" in let* _ := no_matrix kws "view" in let* _ := no_matrix kws "proj" in
          match v with
          | VObj _ k =>
              match found t k 0 with
              | Some (_, Frame c p) =>
                  match place t c with
                  | Some (Sheet d drawn) =>
                      match nth_error (d_panes d) p with
                      | Some a =>
                          let* x := dots (view (d_fig d) a) P count size face edge width in
                          Ok (changed t c (Sheet d (drawn_in drawn (i, p) x)))
                      | None => Err AttributeError
                      end
                  | _ => Err AttributeError
                  end
              | _ => Err AttributeError
              end
          | _ => Err AttributeError
          end
        else Ok t
    | _ => Ok t
    end.

  (** The program itself, the classes being those of gsp_matplotlib
      (gsp/io/command.py:202-303); [refs]: the objects it makes, in order. *)
  Fixpoint played (t : stage) (refs : list ref) (l : list action) : res stage :=
    match l with
    | [] => Ok t
    | Session.New _ path _ _ sg args kw :: l' =>
        match refs with
        | [] => Err AttributeError
        | r :: refs' =>
            let* bound := bind_args sg args kw in
            let* t' := build t r path bound in played t' refs' l'
        end
    | Call r _ m sg args kw :: l' =>
        let* bound := bind_args sg args kw in
        let* t' := invoke t r m bound in played t' refs l'
    end.
  (** The server, from what its classes and methods were called with
      (gsp/io/command.py:409-455). *)
  Fixpoint replayed (t : stage) (outs : list outcome) : res stage :=
    match outs with
    | [] => Ok t
    | Built r path kws :: outs' => let* t' := build t r path kws in replayed t' outs'
    | Called r m kws _ :: outs' => let* t' := invoke t r m kws in replayed t' outs'
    end.
  (** The canvases as they are seen: with their viewports and what is drawn in them, without
      the objects. gsp_matplotlib/core/canvas.py:27-34. *)
  Definition sheets (t : stage) : list (desk C * list ((nat * nat) * list item)) :=
    flat_map (fun kx => match snd kx with Sheet d l => [(d, l)] | _ => [] end) t.
  (** The same, or the error: gsp_matplotlib/core/canvas.py:27-34. *)
  Definition screens (t : res stage) : res (list (desk C * list ((nat * nat) * list item))) := let* t := t in Ok (sheets t).
End Relay.
Arguments thing : clear implicits.
Arguments stage : clear implicits.
