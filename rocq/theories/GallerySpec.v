(** Vocabulary for visuals sent through a session. *)
From Coq Require Import Reals.
From Verif Require Import Base Registry Convert Command CommandSpec Queue Base64 Json Execute Session SessionSpec JsonText JsonTextSpec JsonFile JsonFileSpec AnyFile AnyFileSpec SessionFile SessionFileSpec Measure Viewport Panes Glm Vec VecSpec Render Picture PictureSpec Remote RemoteSpec Relay RelaySpec Gallery.
Open Scope string_scope.

(** The visuals but Segments. *)
Definition is_visual (path : string) : Prop :=
  In path ["visual.Points"; "visual.Pixels"; "visual.Markers"; "visual.Paths"; "visual.Polygons"].

Section Spec.
  Context (arrays : string -> Z -> option arr) (unpack : Command.value -> list N -> res (Vec.kind * list Vec.num)) (look : Command.value -> given).
  Context (txt : string -> Z -> option jval) (pure : func -> Command.value -> res Command.value) (E : cenv) (d : registry).

  (** Of the values given to the class [path] for [k], after these buffers were made:
      - an array is tracked: some converter applies to it, and each gives a buffer made
        before that has its memory; it has one axis, or it is the positions of a visual
        that is not Pixels;
      - other values but objects keep their meaning. *)
  Definition fine_variable (bufs : list (ref * dict string Command.value)) (sg : sig) (path k : string) (v : Command.value) : Prop :=
    match v with
    | VObj _ _ => True
    | VAtom c z =>
        match arrays c z with
        | Some V =>
            let anns := dget (annotations (s_params sg)) k in
            ~ untouched E d anns v /\
            (forall a b f x, tried E anns v a -> In b (mro E (class_of v)) -> conv_for E d b a = Some f -> pure f v = Ok x ->
               exists cl r args, x = VObj cl r /\ In (r, args) bufs /\ holds_memory unpack V args) /\
            ((k = "positions" /\ path <> "visual.Pixels") \/ exists l, a_data V = Flat l)
        | None => same_meaning txt pure look v
        end
    | _ => same_meaning txt pure look v
    end.
  (** So it is for all visuals of a program, and markers with an axis have a buffer for
      positions.  [bufs]: the buffers made before; [refs]: the objects it makes. *)
  Fixpoint fine_visuals (bufs : list (ref * dict string Command.value)) (refs : list ref) (l : list action) : Prop :=
    match l with
    | [] => True
    | Session.New _ path _ _ sg args kw :: l' =>
        match refs with
        | [] => True
        | r :: refs' =>
            forall bound, bind_args sg args kw = Ok bound ->
              (is_visual path -> forall k v, dget bound k = Some v -> fine_variable bufs sg path k v) /\
              (path = "visual.Markers" -> forall a p, dget bound "axis" = Some a -> dget bound "positions" = Some p -> a = VNone \/ is_object p = true) /\
              fine_visuals (if String.eqb path "core.Buffer" then bufs ++ [(r, bound)] else bufs)%list refs' l'
        end
    | Call _ _ _ _ _ _ :: l' => fine_visuals bufs refs l'
    end.
End Spec.

(** What was drawn last of a visual in a viewport. *)
Fixpoint last_hung {P} (l : list ((nat * nat) * P)) (k : nat * nat) : option P :=
  match l with
  | [] => None
  | (k', x) :: l' => if (Nat.eqb (fst k') (fst k) && Nat.eqb (snd k') (snd k))%bool then Some x else last_hung l' k
  end.

(** What the variable [indices] says of the paths: one size for all, or a size each. *)
Definition says_sizes (whole : Vec.num -> Z) (x : var) (i : indices) : Prop :=
  (exists z, x = Plain (Int z) /\ i = Uniform z) \/
  (exists k l, x = Array (Ok (mkA k (Flat l))) (Z.of_nat (length l)) /\ i = Sizes (fun z => z) (map whole l)).

(** For the examples: six vertices (the atom 1) and two widths (the atom 2), with their
    buffers; a visual with them in a viewport of a canvas. *)
Definition some_array (c : string) (z : Z) : option arr :=
  if negb (String.eqb c "tracked") then None
  else if (z =? 1)%Z then Some (table KFloat 3 [[0; 0; 1]; [1; 0; 1]; [1; 1; 1]; [0; 0; 2]; [1; 1; 2]; [0; 1; 2]]%R)
  else if (z =? 2)%Z then Some (mkA KFloat (Flat (map (fun x => Num (IZR x)) [1; 4]%Z)))
  else None.
Definition as_shown (v : Command.value) : given :=
  match v with
  | VNone => Absent
  | VInt z => Int z
  | VFloat z => Else (Whole z)
  | VAtom _ z => Int z
  | v => Else (Row [Z.of_nat (String.length (named v)); 0; 0; 1]%Z)
  end.
Definition render_of (cl : string) (visual viewport : ref) : action :=
  Call visual cl "render"
    (mkS [mkP "viewport" None (Some ["Viewport"]); mkP "model" (Some VNone) (Some ["Matrix"]); mkP "view" (Some VNone) (Some ["Matrix"]);
          mkP "proj" (Some VNone) (Some ["Matrix"])] []) [VObj "Viewport" viewport] [].
Definition paths_of_two : action :=
  Session.New "Paths" "visual.Paths" 0 0
    (mkS [mkP "positions" None (Some ["Transform"; "Buffer"]); mkP "indices" None (Some ["Transform"; "Buffer"; "List"; "int"]);
          mkP "line_colors" None (Some ["Transform"; "Buffer"; "Color"]); mkP "line_widths" None (Some ["Transform"; "Buffer"; "float"]);
          mkP "line_styles" None (Some ["Transform"; "Buffer"; "LineStyle"]); mkP "line_joins" None (Some ["Transform"; "Buffer"; "LineJoin"]);
          mkP "line_caps" None (Some ["Transform"; "Buffer"; "LineCap"])] [])
    [VAtom "tracked" 1; VInt 3; VStr "red"; VAtom "tracked" 2; VAtom "LineStyle" 1; VAtom "LineJoin" 1; VAtom "LineCap" 2] [].
Definition pixels_of : action :=
  Session.New "Pixels" "visual.Pixels" 0 0
    (mkS [mkP "positions" None (Some ["Transform"; "Buffer"]); mkP "colors" None (Some ["Transform"; "Buffer"; "Color"])] [])
    [VAtom "tracked" 1; VStr "red"] [].
Definition markers_of (axis : Command.value) : action :=
  Session.New "Markers" "visual.Markers" 0 0
    (mkS [mkP "positions" None (Some ["Transform"; "Buffer"]); mkP "types" None (Some ["Transform"; "Buffer"; "Marker"]);
          mkP "sizes" None (Some ["Transform"; "Buffer"; "float"]); mkP "axis" None (Some ["Transform"; "Buffer"; "Vec3"; "NoneType"]);
          mkP "angles" None (Some ["Transform"; "Buffer"; "float"]); mkP "fill_colors" None (Some ["Transform"; "Buffer"; "Color"]);
          mkP "line_colors" None (Some ["Transform"; "Buffer"; "Color"]); mkP "line_widths" None (Some ["Transform"; "Buffer"; "float"])] [])
    [VAtom "tracked" 1; VAtom "Marker" 3; VFloat 9; axis; VFloat 0; VStr "red"; VStr "black"; VFloat 1] [].
Definition before_visual : list action :=
  [canvas_of 512 512; viewport_of 0%nat (VInt 0) (VInt 0) (VFloat 1) (VFloat 1) "white";
   buffer_of 6 [0; 0; 1; 1; 0; 1; 1; 1; 1; 0; 0; 2; 1; 1; 2; 0; 1; 2]%N; buffer_of 2 [1; 4]%N].
Definition session_of (cl : string) (visual : action) : list action := (before_visual ++ [visual; render_of cl 4%nat 1%nat])%list.
(** Members of the enumerations are written as numbers. *)
Definition dtype_or_int (c : string) (z : Z) : option jval :=
  if String.eqb c "dtype" then Some (JStr "float32")
  else if existsb (String.eqb c) ["LineStyle"; "LineJoin"; "LineCap"; "Marker"] then Some (JInt z) else None.
(** What C117 asks of such a session, besides [fine_visuals]. *)
Definition gallery_ready (l : list action) : Prop :=
  let c' := Session.acts two_classes arrays_and_colors new_process l in
  starting new_process /\ fine_session dtype_or_int to_buffer_or_color two_classes arrays_and_colors new_process l /\ SessionSpec.ready sinit /\
  offers willing new_process l two_classes arrays_and_colors /\ in_step willing new_process c' rinit l /\
  Forall (plain_lengths two_classes arrays_and_colors) l /\ Forall (plain_colors dtype_or_int to_buffer_or_color named) l /\ Forall real_canvas l /\
  Forall (plain_buffer a_byte_each dtype_or_int to_buffer_or_color two_classes arrays_and_colors) l /\ Forall (plain_render two_classes arrays_and_colors) l.
(** What a server is called with when the session has been saved as s.json and is loaded in
    a new process. *)
Definition gallery_outs (l : list action) : list Execute.outcome :=
  let c' := Session.acts two_classes arrays_and_colors new_process l in
  match gsp_save whole_tok noon dtype_or_int saving_arrays (oid_in (cl_reg c')) 10 yes [] (cl_sys c') None "s.json" with
  | ([("s.json", x)], _, Ok tt) => snd (snd (fst (play_file whole_val (fun _ => 0%Z) willing as_text (fun _ => []) rinit sinit [("s.json", x)] None "s.json")))
  | _ => []
  end.

(** The arguments of the visuals. *)
Definition arguments : list (string * list string) :=
  [("visual.Points", ["positions"; "sizes"; "fill_colors"; "line_colors"; "line_widths"]);
   ("visual.Pixels", ["positions"; "colors"]);
   ("visual.Markers", ["positions"; "types"; "sizes"; "axis"; "angles"; "fill_colors"; "line_colors"; "line_widths"]);
   ("visual.Paths", ["positions"; "indices"; "line_colors"; "line_widths"; "line_styles"; "line_joins"; "line_caps"]);
   ("visual.Polygons", ["positions"; "indices"; "fill_colors"; "line_colors"; "line_widths"; "line_styles"; "line_joins"])].
(** What an argument [v] is for a visual made among the objects [t]. *)
Definition stands_for {C P} arrays look (t : hall C P) (v : Command.value) (x : var) : Prop :=
  match v with
  | VAtom c z => match arrays c z with Some V => x = Array (Ok V) (Z.of_nat (rows V)) | None => x = Plain (look v) end
  | VObj _ k => match located t k 0 with Some (_, Memory A n) => x = Array A n | _ => x = Wrong end
  | _ => x = Plain (look v)
  end.
(** Sizes of paths with which paths and polygons can be made: a positive number, or an
    array. *)
Definition counts (x : var) : Prop := (exists z, x = Plain (Int z) /\ (0 < z)%Z) \/ exists A n, x = Array A n /\ (0 <= n)%Z.
