(** The point cloud example as a whole: examples/lidar-point-cloud.py.

    Simplifications: coordinates are rationals in the file and reals in the picture, no
    infinities or NaN; the archive is already downloaded (Download.v) and read; numpy's
    random choice is a parameter; colours are compared after any encoding [code]; the bounds
    and the number of points wished are parameters. *)
From Coq Require Import QArith Qcanon Reals.
From Verif Require Import Base Measure Viewport Glm Vec Render Cloud Picture.

(** What np.load gives: the arrays "pos" and "color", if they are there; colours are
    bytes. examples/lidar-point-cloud.py:31-32. *)
Record archive := mkArchive { a_pos : option (list pt); a_color : option (list (list BinInt.Z)) }.
(** point_colors / 255.0, examples/lidar-point-cloud.py:35. *)
Definition share (z : BinInt.Z) : Qc := Q2Qc (z # 255).
(** load_npz_point_cloud, examples/lidar-point-cloud.py:15-37. *)
Definition load_cloud (a : archive) : res (list pt * list (list Qc)) :=
  match a_pos a, a_color a with
  | Some ps, Some cs => Ok (ps, map (map share) cs)
  | _, _ => Err KeyError
  end.
(** The array of positions given to Pixels, examples/lidar-point-cloud.py:152. *)
Definition cloud_array (ps : list pt) : arr :=
  mkA KFloat (Vec.Rows 3 (map (fun p => [Num (inR (coord X p)); Num (inR (coord Y p)); Num (inR (coord Z p))]) ps)).
(** The program, examples/lidar-point-cloud.py:39-40, 94-101, 135-139 and 152-156, and what the
    camera then draws, gsp_matplotlib/visual/pixels.py:68-82. *)
Definition terrain (choose : nat -> nat -> list nat) (argsort : list num -> list nat) (code : Qc -> BinInt.Z) (b : bounds) (wished : option BinInt.Z)
    (a : archive) (v : Viewport.viewport) (model view proj : mat) : res (list (option (R * R) * list (option (list BinInt.Z)))) :=
  let* x := load_cloud a in
  let* y := crop (fst x) (snd x) b in
  let* z := downsample choose (fst y) (snd y) wished in
  pixels argsort v (cloud_array (fst z)) model view proj (Render.Rows (map (map code) (snd z))).
