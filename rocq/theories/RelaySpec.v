(** Vocabulary for points sent through a session. *)
From Coq Require Import Reals.
From Verif Require Import Base Registry Convert Command CommandSpec Queue Base64 Json Execute Session SessionSpec JsonText JsonTextSpec JsonFile JsonFileSpec AnyFile AnyFileSpec SessionFile SessionFileSpec Measure Viewport Panes Glm Vec VecSpec Render Picture PictureSpec Remote RemoteSpec Relay.
Open Scope string_scope.

Section Spec.
  Context (arrays : string -> Z -> option arr) (unpack : Command.value -> list N -> res (Vec.kind * list Vec.num)) (look : Command.value -> attr).
  Context (txt : string -> Z -> option jval) (pure : func -> Command.value -> res Command.value) (E : cenv) (d : registry).

  (** No converter takes the value to one of the annotated types. *)
  Definition no_converter (sg : sig) (k : string) (v : Command.value) : Prop :=
    forall anns a b, dget (annotations (s_params sg)) k = Some anns -> In a anns -> In b (mro E (class_of v)) -> conv_for E d b a = None.
  (** A value that is no object, nor converted to one, and is understood the same after
      it was written to a file and read, as given or converted. *)
  Definition same_meaning {X} (f : Command.value -> X) (v : Command.value) : Prop :=
    is_object v = false /\ (forall g x, pure g v = Ok x -> is_object x = false) /\
    forall oidf x j, (x = v \/ exists g, pure g v = Ok x) -> encode txt oidf x = Ok j -> f (decode j) = f v.

  (** Buffers are made with a number, a dtype that is understood the same as text, and
      bytes, the text of bytes, or nothing. *)
  Definition plain_buffer (a : action) : Prop :=
    match a with
    | Session.New _ path _ _ sg args kw =>
        forall bound, path = "core.Buffer" -> bind_args sg args kw = Ok bound ->
          (forall v, dget bound "count" = Some v -> (exists z, v = VInt z) /\ no_converter sg "count" v) /\
          (forall v, dget bound "data" = Some v ->
             (v = VNone \/ (exists s, v = VStr s) \/ exists b, v = VBytes b /\ forall x, In x b -> (x < 256)%N) /\ no_converter sg "data" v) /\
          (forall v b, dget bound "dtype" = Some v -> same_meaning (fun v => unpack v b) v)
    | Call _ _ _ _ _ _ => True
    end.
  (** Visuals are rendered in a viewport that is an object, without matrices. *)
  Definition plain_render (a : action) : Prop :=
    match a with
    | Session.New _ _ _ _ _ _ _ => True
    | Call _ _ m sg args kw =>
        forall bound, m = "render" -> bind_args sg args kw = Ok bound ->
          (forall v, dget bound "viewport" = Some v -> is_object v = true) /\
          (forall k v, In k ["model"; "view"; "proj"] -> dget bound k = Some v -> v = VNone /\ no_converter sg k v)
    end.

  (** The buffer made with these arguments has the array's memory: its length, and its
      numbers in order. *)
  Definition holds_memory (V : arr) (b : dict string Command.value) : Prop :=
    dget b "count" = Some (VInt (Z.of_nat (rows V))) /\
    exists dt data bytes, dget b "dtype" = Some dt /\ dget b "data" = Some data /\
      (data = VBytes bytes \/ exists s, data = VStr s /\ b64decode s = Ok bytes) /\
      unpack dt bytes = Ok (a_kind V, elements (a_data V)).
  (** Of the values given for an attribute of points, after these buffers were made:
      - an array is tracked: some converter applies to it, and each gives a buffer made
        before that has its memory; if it is not the positions it has one axis;
      - other values but objects keep their meaning. *)
  Definition fine_attribute (bufs : list (ref * dict string Command.value)) (sg : sig) (k : string) (v : Command.value) : Prop :=
    match v with
    | VObj _ _ => True
    | VAtom c z =>
        match arrays c z with
        | Some V =>
            let anns := dget (annotations (s_params sg)) k in
            ~ untouched E d anns v /\
            (forall a b f x, tried E anns v a -> In b (mro E (class_of v)) -> conv_for E d b a = Some f -> pure f v = Ok x ->
               exists cl r args, x = VObj cl r /\ In (r, args) bufs /\ holds_memory V args) /\
            (k <> "positions" -> exists l, a_data V = Flat l)
        | None => same_meaning look v
        end
    | _ => same_meaning look v
    end.
  (** So it is for all points of a program.  [bufs]: the buffers made before; [refs]: the
      objects it makes. *)
  Fixpoint fine_points (bufs : list (ref * dict string Command.value)) (refs : list ref) (l : list action) : Prop :=
    match l with
    | [] => True
    | Session.New _ path _ _ sg args kw :: l' =>
        match refs with
        | [] => True
        | r :: refs' =>
            forall bound, bind_args sg args kw = Ok bound ->
              (path = "visual.Points" -> forall k v, In k ["positions"; "sizes"; "fill_colors"; "line_colors"; "line_widths"] ->
                 dget bound k = Some v -> fine_attribute bufs sg k v) /\
              fine_points (if String.eqb path "core.Buffer" then bufs ++ [(r, bound)] else bufs)%list refs' l'
        end
    | Call _ _ _ _ _ _ :: l' => fine_points bufs refs l'
    end.
End Spec.

(** What was drawn last of a visual in a viewport. *)
Fixpoint last_drawn (l : list ((nat * nat) * list item)) (k : nat * nat) : option (list item) :=
  match l with
  | [] => None
  | (k', x) :: l' => if (Nat.eqb (fst k') (fst k) && Nat.eqb (snd k') (snd k))%bool then Some x else last_drawn l' k
  end.

(** For the examples: two points, their sizes and their colours (the atoms 1, 2 and 3),
    their buffers (a byte for each number), a canvas and a viewport. *)
Definition an_array (c : string) (z : Z) : option arr :=
  if (z =? 1)%Z then Some (table KFloat 3 [[0; 0; 1]; [1; 0; 2]]%R)
  else if (z =? 2)%Z then Some (mkA KFloat (Flat (map (fun x => Num (IZR x)) [9; 16]%Z)))
  else if (z =? 3)%Z then Some (table KFloat 4 [[1; 0; 0; 1]; [0; 1; 0; 1]]%R)
  else None.
Definition a_byte_each (dtype : Command.value) (b : list N) : res (Vec.kind * list Vec.num) :=
  Ok (KFloat, map (fun x => Num (IZR (Z.of_N x))) b).
Definition no_code (x : Vec.num) : Z := 0%Z.
Definition as_given (v : Command.value) : attr :=
  match v with VFloat z => Whole z | VInt z => Whole z | _ => Row [Z.of_nat (String.length (named v)); 0; 0; 1]%Z end.
Definition arrays_and_colors : registry := [(("tracked", "Buffer"), 7%nat); (("str", "Color"), 9%nat)].
Definition to_buffer_or_color (f : func) (v : Command.value) : res Command.value :=
  match v with
  | VAtom c z => if String.eqb c "tracked" then Ok (VObj "Buffer" (Z.to_nat z + 1)%nat) else Err TypeError
  | VStr _ => as_text f v
  | _ => Err TypeError
  end.
Definition dtype_text (c : string) (z : Z) : option jval := if String.eqb c "dtype" then Some (JStr "float32") else None.
Definition saving_arrays (f : func) (v : Command.value) : list call * res Command.value := ([], to_buffer_or_color f v).
Definition buffer_of (count : Z) (bytes : list N) : action :=
  Session.New "Buffer" "core.Buffer" 0 0
    (mkS [mkP "count" None (Some ["int"]); mkP "dtype" None (Some ["dtype"]); mkP "data" None (Some ["memoryview"; "bytes"])] [])
    [VInt count; VAtom "dtype" 0; VBytes bytes] [].
Definition points_of (size face : Command.value) : action :=
  Session.New "Points" "visual.Points" 0 0
    (mkS [mkP "positions" None (Some ["Transform"; "Buffer"]); mkP "sizes" None (Some ["Transform"; "Buffer"; "float"]);
          mkP "fill_colors" None (Some ["Transform"; "Buffer"; "Color"]); mkP "line_colors" None (Some ["Transform"; "Buffer"; "Color"]);
          mkP "line_widths" None (Some ["Transform"; "Buffer"; "float"])] [])
    [VAtom "tracked" 1; size; face; VStr "black"; VFloat 1] [].
Definition render_in (points viewport : ref) : action :=
  Call points "Points" "render"
    (mkS [mkP "viewport" None (Some ["Viewport"]); mkP "model" (Some VNone) (Some ["Matrix"]); mkP "view" (Some VNone) (Some ["Matrix"]);
          mkP "proj" (Some VNone) (Some ["Matrix"])] []) [VObj "Viewport" viewport] [].
Definition sized_points : list action :=
  [canvas_of 512 512; viewport_of 0%nat (VInt 0) (VInt 0) (VFloat 1) (VFloat 1) "white";
   buffer_of 2 [0; 0; 1; 1; 0; 2]%N; buffer_of 2 [9; 16]%N; points_of (VAtom "tracked" 2) (VStr "red"); render_in 4%nat 1%nat].
(** The same with a colour for each point. *)
Definition colored_points : list action :=
  [canvas_of 512 512; viewport_of 0%nat (VInt 0) (VInt 0) (VFloat 1) (VFloat 1) "white";
   buffer_of 2 [0; 0; 1; 1; 0; 2]%N; buffer_of 2 [9; 16]%N; buffer_of 2 [1; 0; 0; 1; 0; 1; 0; 1]%N;
   points_of (VAtom "tracked" 2) (VAtom "tracked" 3); render_in 5%nat 1%nat].
(** The same with the buffer of a longer array for the positions, as an array that is a
    part of another one has it. *)
Definition part_of_points : list action :=
  [canvas_of 512 512; viewport_of 0%nat (VInt 0) (VInt 0) (VFloat 1) (VFloat 1) "white";
   buffer_of 3 [0; 0; 1; 1; 0; 2; 2; 0; 3]%N; points_of (VFloat 9) (VStr "red"); render_in 3%nat 1%nat].
(** What C116 asks of such a session, besides [fine_points]. *)
Definition relay_ready (l : list action) : Prop :=
  let c' := Session.acts two_classes arrays_and_colors new_process l in
  starting new_process /\ fine_session dtype_text to_buffer_or_color two_classes arrays_and_colors new_process l /\ SessionSpec.ready sinit /\
  offers willing new_process l two_classes arrays_and_colors /\ in_step willing new_process c' rinit l /\
  Forall (plain_lengths two_classes arrays_and_colors) l /\ Forall (plain_colors dtype_text to_buffer_or_color named) l /\ Forall real_canvas l /\
  Forall (plain_buffer a_byte_each dtype_text to_buffer_or_color two_classes arrays_and_colors) l /\ Forall (plain_render two_classes arrays_and_colors) l.
(** What a server is called with when the session has been saved as s.json and is loaded in
    a new process. *)
Definition relayed_outs (l : list action) : list Execute.outcome :=
  let c' := Session.acts two_classes arrays_and_colors new_process l in
  match gsp_save whole_tok noon dtype_text saving_arrays (oid_in (cl_reg c')) 10 yes [] (cl_sys c') None "s.json" with
  | ([("s.json", x)], _, Ok tt) => snd (snd (fst (play_file whole_val (fun _ => 0%Z) willing as_text (fun _ => []) rinit sinit [("s.json", x)] None "s.json")))
  | _ => []
  end.
