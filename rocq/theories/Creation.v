(** Creating visuals.  Models the constructors of gsp/visual/points.py:44-92,
    markers.py:48-111, pixels.py:38-72, segments.py:44-90, paths.py:109-171,
    polygons.py:105-167 and of gsp_matplotlib/visual/points.py:18-25,
    markers.py:19-29, pixels.py:28-30, segments.py:20-26, paths.py:19-28,
    polygons.py:19-28: how arguments become input variables and how large the
    arrays of the output variables are made.

    Simplifications: recording is left out (Command.v, Session.v), as are the
    shapes of markers that gsp_matplotlib/visual/markers.py:30 prepares (Marker.v);
    the count of a buffer is not negative. *)
From Verif Require Import Base Registry Convert Command Execute Protocol.
From Verif Require Import Buffer.
From Verif Require Visual.
Open Scope string_scope.

(** Objects of the program as far as they matter here.  A transform carries what
    its evaluate({"dpi":100}) gives. *)
Inductive thing := ATransform (r : res value) | ABuffer (b : buffer) | AList (l : blist) | Another.
(** [w_thing]: the protocol objects; [w_array]: the length of foreign values (numpy
    arrays), None for those without.
    What the constructors ask of their arguments: len (gsp/visual/points.py:85) and isinstance. *)
Record world := mkW { w_thing : ref -> thing; w_array : string -> Z -> option nat }.

(** Python's len.  gsp/core/buffer.py:56-59, gsp/core/list.py:40-46; transforms
    (gsp/transform/transform.py), canvases, viewports and visuals have no length. *)
Definition len (w : world) (v : value) : res nat :=
  match v with
  | VStr s => Ok (String.length s)
  | VBytes b => Ok (List.length b)
  | VSeq l => Ok (List.length l)
  | VAtom c n => match w_array w c n with Some k => Ok k | None => Err TypeError end
  | VObj _ r => match w_thing w r with
                | ABuffer b => Ok (Buffer.len b)
                | AList l => list_len l
                | ATransform _ | Another => Err TypeError
                end
  | VNone | VInt _ | VFloat _ | VOid _ | VConv _ _ => Err TypeError
  end.
(** isinstance(positions, Transform) and its evaluation: segments.py:80-81,
    paths.py:155-156, polygons.py:150-151. *)
Definition evaluated (w : world) (v : value) : res value :=
  match v with
  | VObj _ r => match w_thing w r with ATransform x => x | _ => Ok v end
  | _ => Ok v
  end.
(** The number of paths or polygons: paths.py:160-163, polygons.py:155-158
    (Python's // rounds down). *)
Definition groups (w : world) (n : nat) (indices : value) : res Z :=
  match indices with
  | VInt z | VOid z => if (z =? 0)%Z then Err ZeroDivisionError else Ok (Z.of_nat n / z)%Z
  | _ => let* m := len w indices in Ok (Z.of_nat m)
  end.
(** np.empty refuses a negative size. gsp/visual/points.py:86-92. *)
Definition empty (shape : list Z) : res (list Z) :=
  if existsb (fun d => (d <? 0)%Z) shape then Err ValueError else Ok shape.
(** The arrays of a table in order, as in gsp/visual/points.py:86-92. *)
Fixpoint empties (l : list (string * list Z)) : res (dict string (list Z)) :=
  match l with
  | [] => Ok []
  | (n, s) :: r => let* s := empty s in let* r := empties r in Ok ((n, s) :: r)
  end.

(** A new visual: its input variables, and the shapes of its output arrays.
    gsp/visual/points.py:73-92, and the same for the other visuals. *)
Record created := mkC { c_in : dict string value; c_out : dict string (list Z) }.
(** The value of a local variable of the constructor.
    Parameters of gsp/visual/points.py:44-51, and the same for the other visuals. *)
Definition var (b : dict string value) (n : string) : res value :=
  match dget b n with Some v => Ok v | None => Err NameError end.
(** One row after the other of [_in_variables], gsp/visual/points.py:73-80. *)
Fixpoint table (b : dict string value) (l : list (string * string)) : res (dict string value) :=
  match l with
  | [] => Ok [("viewport", VNone)]
  | (n, x) :: r => let* v := var b x in let* t := table b r in Ok ((n, v) :: t)
  end.
(** [_in_variables]: the name of each variable, and the parameter it is taken from.
    points.py:73-80, markers.py:86-96, pixels.py:60-64, segments.py:69-75,
    paths.py:141-150, polygons.py:136-145. *)
Definition in_table (k : Visual.vkind) : list (string * string) :=
  match k with
  | Visual.Points => [("positions", "positions"); ("sizes", "sizes"); ("fill_colors", "fill_colors");
                      ("line_colors", "line_colors"); ("line_widths", "line_widths")]
  | Visual.Markers => [("positions", "positions"); ("types", "types"); ("sizes", "sizes"); ("axis", "axis"); ("angles", "angles");
                       ("fill_colors", "fill_colors"); ("line_colors", "line_colors"); ("line_widths", "line_widths")]
  | Visual.Pixels => [("positions", "positions"); ("colors", "colors")]
  | Visual.Segments => [("positions", "positions"); ("line_caps", "line_caps"); ("line_colors", "line_colors"); ("line_widths", "line_widths")]
  | Visual.Paths => [("positions", "positions"); ("indices", "indices"); ("line_colors", "line_colors"); ("line_widths", "line_widths");
                     ("line_styles", "line_styles"); ("line_joins", "line_joins"); ("line_caps", "line_caps")]
  | Visual.Polygons => [("positions", "positions"); ("indices", "indices"); ("fill_colors", "fill_colors"); ("line_colors", "line_colors");
                        ("line_widths", "line_widths"); ("line_styles", "line_styles"); ("line_joins", "line_joins")]
  end.
(** [_out_variables] for [n] positions and [m] groups.  points.py:85-92,
    markers.py:101-111, pixels.py:69-72, segments.py:82-90, paths.py:165-171,
    polygons.py:160-167. *)
Definition out_table (k : Visual.vkind) (n m : Z) : list (string * list Z) :=
  match k with
  | Visual.Points => [("screen[positions]", [n; 3]); ("sizes", [n]); ("fill_colors", [n; 4]); ("line_colors", [n; 4]); ("line_widths", [n])]%Z
  | Visual.Markers => [("screen[positions]", [n; 3]); ("types", [n]); ("sizes", [n]); ("axis", [n; 3]); ("angles", [n]);
                       ("fill_colors", [n; 4]); ("line_colors", [n; 4]); ("line_widths", [n])]%Z
  | Visual.Pixels => [("screen[positions]", [n; 3])]%Z
  | Visual.Segments => [("screen[positions]", [n; 2; 3]); ("screen[segments]", [n]); ("line_caps", [n; 2]); ("line_colors", [n; 4]); ("line_widths", [n])]%Z
  | Visual.Paths => [("screen[positions]", [n; 3]); ("screen[paths]", [m; 3]); ("line_caps", [n; 2]); ("line_colors", [n; 4]); ("line_widths", [n])]%Z
  | Visual.Polygons => [("screen[positions]", [n; 3]); ("screen[polygons]", [m; 3]); ("line_caps", [n; 2]); ("fill_colors", [n; 4]);
                        ("line_colors", [n; 4]); ("line_widths", [n])]%Z
  end.
(** The body of a constructor; [b]: its parameters.
    gsp/visual/points.py:44-92, markers.py:48-111, pixels.py:38-72, segments.py:44-90, paths.py:109-171, polygons.py:105-167. *)
Definition init (w : world) (k : Visual.vkind) (b : dict string value) : res created :=
  let* t := table b (in_table k) in
  let* p := var b "positions" in
  let* p := match k with
            | Visual.Segments | Visual.Paths | Visual.Polygons => evaluated w p
            | Visual.Points | Visual.Markers | Visual.Pixels => Ok p
            end in
  let* n := len w p in
  let* m := match k with
            | Visual.Paths | Visual.Polygons => let* i := var b "indices" in groups w n i
            | _ => Ok 0%Z
            end in
  let* o := empties (out_table k (Z.of_nat n) m) in
  Ok (mkC t o).

(** The names given to the decorator: gsp/visual/points.py:44, markers.py:48, pixels.py:38, segments.py:44, paths.py:109, polygons.py:105. *)
Definition path (k : Visual.vkind) : string :=
  match k with
  | Visual.Points => "visual.Points" | Visual.Markers => "visual.Markers" | Visual.Pixels => "visual.Pixels"
  | Visual.Segments => "visual.Segments" | Visual.Paths => "visual.Paths" | Visual.Polygons => "visual.Polygons"
  end.
(** Calling the class of the protocol. The decorator is that of gsp/io/command.py:202-303. *)
Definition create (w : world) (k : Visual.vkind) (args : list value) (kw : dict string value) : res created :=
  match find protocol (path k) with
  | Some c => let* b := bind_args (k_sig c) args kw in init w k b
  | None => Err AttributeError
  end.
(** The arguments the classes of the backend pass on, in order:
    gsp_matplotlib/visual/points.py:24-25, markers.py:27-29, pixels.py:30,
    segments.py:25-26, paths.py:27-28, polygons.py:27-28. *)
Definition forwards (k : Visual.vkind) : list string :=
  match k with
  | Visual.Points => ["positions"; "sizes"; "fill_colors"; "line_colors"; "line_widths"]
  | Visual.Markers => ["positions"; "types"; "sizes"; "axis"; "angles"; "fill_colors"; "line_colors"; "line_widths"]
  | Visual.Pixels => ["positions"; "colors"]
  | Visual.Segments => ["positions"; "line_caps"; "line_colors"; "line_widths"]
  | Visual.Paths => ["positions"; "indices"; "line_colors"; "line_widths"; "line_styles"; "line_joins"; "line_caps"]
  | Visual.Polygons => ["positions"; "indices"; "fill_colors"; "line_colors"; "line_widths"; "line_styles"; "line_joins"]
  end.
(** The local variables passed on, in order. *)
Fixpoint vars (b : dict string value) (l : list string) : res (list value) :=
  match l with [] => Ok [] | n :: r => let* v := var b n in let* vs := vars b r in Ok (v :: vs) end.
(** Calling the class of the backend.
    gsp_matplotlib/visual/points.py:18-25, markers.py:19-29, pixels.py:28-30, segments.py:20-26, paths.py:19-28, polygons.py:19-28. *)
Definition create_mpl (w : world) (k : Visual.vkind) (args : list value) (kw : dict string value) : res created :=
  match find matplotlib (path k) with
  | Some c => let* b := bind_args (k_sig c) args kw in
              let* l := vars b (forwards k) in
              create w k l []
  | None => Err AttributeError
  end.
