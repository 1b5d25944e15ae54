(** The constructors of the protocol and of the matplotlib backend.  Models the
    decorated constructors of gsp/core, gsp/visual, gsp/transform,
    gsp_matplotlib/core and gsp_matplotlib/visual (names and parameters), what the
    two packages export (gsp/core/__init__.py, gsp/visual/__init__.py,
    gsp/transform/__init__.py, gsp/__init__.py:5-11, gsp_matplotlib/__init__.py:1-20,
    gsp_matplotlib/core/__init__.py, gsp_matplotlib/visual/__init__.py), and what
    saving and loading make of a creation (gsp/io/json.py:43-49, 95-98).

    Simplifications: annotations are left out (they do not take part in executing a
    command); the bodies of the constructors are a parameter. *)
From Verif Require Import Base Registry Convert Command Execute.
Open Scope string_scope.

(** A parameter without default value, as in gsp/core/canvas.py:29-31. *)
Definition req (n : string) : param := mkP n None None.
(** A parameter with a default value, as in gsp/transform/transform.py:13-15. *)
Definition opt (n : string) : param := mkP n (Some VNone) None.
(** The parameters of a constructor after self, gsp/core/canvas.py:29-31. *)
Definition takes (l : list param) : sig := mkS l [].

(** A class: its path in its package, the name given to the decorator, and the
    parameters of its constructor.  Default values other than None are given as
    None: only their presence matters here. As in gsp/core/canvas.py:28-31. *)
Record cls := mkCls { k_path : string; k_recorded : string; k_sig : sig }.

(** gsp/visual/points.py:44-49. *)
Definition points_sig := takes (map req ["positions"; "sizes"; "fill_colors"; "line_colors"; "line_widths"]).
(** gsp/visual/markers.py:48-56. *)
Definition markers_sig := takes (map req ["positions"; "types"; "sizes"; "axis"; "angles"; "fill_colors"; "line_colors"; "line_widths"]).
(** gsp/visual/pixels.py:38-40. *)
Definition pixels_sig := takes (map req ["positions"; "colors"]).
(** gsp/visual/segments.py:44-48. *)
Definition segments_sig := takes (map req ["positions"; "line_caps"; "line_colors"; "line_widths"]).
(** gsp/visual/paths.py:109-116. *)
Definition paths_sig := takes (map req ["positions"; "indices"; "line_colors"; "line_widths"; "line_styles"; "line_joins"; "line_caps"]).
(** gsp/visual/polygons.py:105-112. *)
Definition polygons_sig := takes (map req ["positions"; "indices"; "fill_colors"; "line_colors"; "line_widths"; "line_styles"; "line_joins"]).
(** gsp/core/buffer.py:20-23. *)
Definition buffer_sig := takes [req "count"; req "dtype"; opt "data"].
(** gsp/core/list.py:22-24. *)
Definition list_sig := takes (map req ["data"; "itemsizes"]).
(** gsp/core/canvas.py:28-31. *)
Definition canvas_sig := takes (map req ["width"; "height"; "dpi"]).
(** gsp/core/viewport.py:30-36. *)
Definition viewport_sig := takes (map req ["canvas"; "x"; "y"; "width"; "height"; "color"]).

(** gsp/core: buffer.py:20-23, canvas.py:28-31, data.py:28-31, list.py:22-24,
    viewport.py:30-36.  gsp/visual: points.py:44-49, markers.py:48-56, pixels.py:38-40,
    segments.py:44-48, paths.py:109-116, polygons.py:105-112.  gsp/transform:
    transform.py:12-15, operator.py:10-13, 149-203, accessor.py:15-17, 61-131,
    colormap.py:13-17, measure.py:126-227, out.py:14-15.  transform.Measure cannot be
    created (measure.py:48 calls the constructor of the builtin super without an
    object) and transform.Light is not exported. *)
Definition protocol : list cls :=
  [mkCls "core.Data" "core.Data" (takes [opt "uri"; opt "nbytes"; opt "dtype"]);
   mkCls "core.List" "core.List" list_sig;
   mkCls "core.Buffer" "core.Buffer" buffer_sig;
   mkCls "core.Canvas" "core.Canvas" canvas_sig;
   mkCls "core.Viewport" "core.Viewport" viewport_sig;
   mkCls "visual.Points" "visual.Points" points_sig;
   mkCls "visual.Markers" "visual.Markers" markers_sig;
   mkCls "visual.Pixels" "visual.Pixels" pixels_sig;
   mkCls "visual.Segments" "visual.Segments" segments_sig;
   mkCls "visual.Paths" "visual.Paths" paths_sig;
   mkCls "visual.Polygons" "visual.Polygons" polygons_sig;
   mkCls "transform.Transform" "transform.Transform" (takes [opt "base"; opt "next"; opt "buffer"]);
   mkCls "transform.Operator" "transform.Operator" (takes [req "operator"; opt "left"; opt "right"]);
   mkCls "transform.Add" "transform.Add" (takes [opt "left"; opt "right"]);
   mkCls "transform.Sub" "transform.Sub" (takes [opt "left"; opt "right"]);
   mkCls "transform.Mul" "transform.Mul" (takes [opt "left"; opt "right"]);
   mkCls "transform.Div" "transform.Div" (takes [opt "left"; opt "right"]);
   mkCls "transform.Accessor" "transform.Accessor" (takes [opt "buffer"; opt "key"]);
   mkCls "transform.X" "transform.X" (takes [opt "buffer"]);
   mkCls "transform.Y" "transform.Y" (takes [opt "buffer"]);
   mkCls "transform.Z" "transform.Z" (takes [opt "buffer"]);
   mkCls "transform.W" "transform.W" (takes [opt "buffer"]);
   mkCls "transform.R" "transform.R" (takes [opt "buffer"]);
   mkCls "transform.G" "transform.G" (takes [opt "buffer"]);
   mkCls "transform.B" "transform.B" (takes [opt "buffer"]);
   mkCls "transform.A" "transform.A" (takes [opt "buffer"]);
   mkCls "transform.Colormap" "transform.Colormap" (takes [opt "colormap"; opt "vmin"; opt "vmax"]);
   mkCls "transform.Pixel" "transform.Pixel" (takes []);
   mkCls "transform.Inch" "transform.Inch" (takes []);
   mkCls "transform.Point" "transform.Point" (takes []);
   mkCls "transform.Centimeter" "transform.Centimeter" (takes []);
   mkCls "transform.Millimeter" "transform.Millimeter" (takes []);
   mkCls "transform.Meter" "transform.Meter" (takes []);
   mkCls "transform.Kilometer" "transform.Kilometer" (takes []);
   mkCls "transform.Out" "transform.Out" (takes [opt "name"])].
(** gsp_matplotlib/core: buffer.py:14-18, list.py:14-17; canvas.py:16-20 and
    viewport.py:15-22 leave the recording to the constructor of the protocol.
    gsp_matplotlib/visual: points.py:17-25, markers.py:18-29, pixels.py:27-30,
    segments.py:19-26, paths.py:18-28, polygons.py:18-28. *)
Definition matplotlib : list cls :=
  [mkCls "core.List" "core.List" (takes (map req ["data"; "itemsizes"]));
   mkCls "core.Buffer" "core.Buffer" (takes [req "count"; req "dtype"; opt "data"]);
   mkCls "core.Canvas" "core.Canvas" (takes (map req ["width"; "height"; "dpi"]));
   mkCls "core.Viewport" "core.Viewport" (takes (map req ["canvas"; "x"; "y"; "width"; "height"; "color"]));
   mkCls "visual.Pixels" "visual.Pixels" (takes (map req ["positions"; "colors"]));
   mkCls "visual.Points" "visual.Points" (takes (map req ["positions"; "sizes"; "fill_colors"; "line_colors"; "line_widths"]));
   mkCls "visual.Markers" "visual.Markers"
     (takes (map req ["positions"; "types"; "sizes"; "axis"; "angles"; "fill_colors"; "line_colors"; "line_widths"]));
   mkCls "visual.Segments" "visual.Points" (takes (map req ["positions"; "line_caps"; "line_colors"; "line_widths"]));
   mkCls "visual.Paths" "visual.Paths"
     (takes (map req ["positions"; "indices"; "line_colors"; "line_widths"; "line_styles"; "line_joins"; "line_caps"]));
   mkCls "visual.Polygons" "visual.Polygons"
     (takes (map req ["positions"; "indices"; "fill_colors"; "line_colors"; "line_widths"; "line_styles"; "line_joins"]))].

(** The class at a path of a package: evaluating backend_module.path. gsp/io/command.py:446-447. *)
Definition find (pkg : list cls) (path : string) : option cls :=
  List.find (fun k => String.eqb (k_path k) path) pkg.
(** A package as a backend (gsp/io/command.py:446-448): calling a class binds the
    parameters, then runs its body. *)
Definition backend_of (pkg : list cls) (body : string -> dict string value -> res (nat * nat))
    (meth : string -> string -> bool) (call : string -> string -> ref -> dict string value -> res value) : backend :=
  mkB (fun p => match find pkg p with Some _ => true | None => false end)
      (fun p kw => match find pkg p with
                   | Some k => let* b := bind_args (k_sig k) [] kw in body p b
                   | None => Err AttributeError
                   end) meth call.
(** Creating an object of class [k] records its dotted name as the method
    (command.py:297-299); saved and loaded again (gsp/io/json.py:43-49 and 95-98) it is the
    name of a class to be built.  [p]: the parameters, among them the id. *)
Definition reloaded (k : cls) (cid : Z) (p : dict string value) : command := mkC cid (k_recorded k) "__init__" p.
