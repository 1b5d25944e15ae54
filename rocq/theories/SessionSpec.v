(** What it means that a backend has done what a program did. *)
From Verif Require Import Base Registry Convert Command CommandSpec Queue QueueSpec Base64 Execute Json Session.
Open Scope string_scope.

(** The objects the backend made, in order. *)
Definition built (outs : list outcome) : list ref :=
  flat_map (fun o => match o with Built r _ _ => [r] | Called _ _ _ _ => [] end) outs.

(** The n-th object made by the backend stands for the n-th object made by the
    program; [path] is its class. *)
Definition stands_for (made : list (ref * string)) (bs : list ref) (r : ref) (path : string) (R : ref) : Prop :=
  exists n, nth_error made n = Some (r, path) /\ nth_error bs n = Some R.

Section Arrives.
  Context (txt : string -> Z -> option jval) (pure : func -> value -> res value) (oidf : ref -> Z)
          (E : cenv) (d : registry) (made : list (ref * string)) (bs : list ref).

  (** How an argument for a parameter with these annotated types arrives: an
      object as the object standing for it; any other value as its JSON form,
      converted first if one of its classes has a converter to one of the annotated
      types before the first it belongs to.  What it is converted to
      may be an object itself (the buffer of an array, for example): the object
      standing for that one arrives. *)
  Definition arrives (anns : option (list string)) (v w : value) : Prop :=
    exists x,
      (x = v /\ (is_object v = true \/ untouched E d anns v) \/ is_object v = false /\
         exists a b f, tried E anns v a /\ In b (mro E (class_of v)) /\ conv_for E d b a = Some f /\ pure f v = Ok x) /\
      match x with
      | VObj _ r => exists path R, stands_for made bs r path R /\ w = VObj path R
      | _ => exists j, encode txt oidf x = Ok j /\ w = decode j
      end.

  (** The arguments of a call all arrive, under the names Python binds them
      to, and nothing else does. *)
  Definition received (sg : sig) (args : list value) (kw kws : dict string value) : Prop :=
    exists bound, bind_args sg args kw = Ok bound /\
      forall k, match dget bound k with
                | Some v => exists w, dget kws k = Some w /\ arrives (dget (annotations (s_params sg)) k) v w
                | None => dget kws k = None
                end.

  (** The backend has done what the program did in one step. *)
  Definition done (a : action) (o : outcome) : Prop :=
    match a, o with
    | New _ path _ _ sg args kw, Built _ path' kws => path' = path /\ received sg args kw kws
    | Call r _ m sg args kw, Called R m' kws _ =>
        m' = m /\ (exists path, stands_for made bs r path R) /\ received sg args kw kws
    | _, _ => False
    end.
End Arrives.

(** ** Sessions that can be sent *)

(** A recorded value that can be written to a file: JSON can represent it, or what
    it is converted to; or it is converted to an object the session made. *)
Definition sendable (txt : string -> Z -> option jval) (pure : func -> value -> res value) (made : list (ref * string))
  (v : value) : Prop :=
  match v with
  | VConv f w => exists x, pure f w = Ok x /\
                   match x with
                   | VObj _ r => exists path, In (r, path) made
                   | _ => forall oidf, exists j, encode txt oidf x = Ok j
                   end
  | _ => forall oidf, exists j, encode txt oidf v = Ok j
  end.

(** Arguments: the call is accepted; objects are among those the session made
    and are not given for a parameter with a default (see C11); other values
    can be written to a file. *)
Definition fine_args txt pure E d (made : list (ref * string)) (id : Z) (sg : sig)
  (args : list value) (kw : dict string value) : Prop :=
  valid_sig sg /\ NoDup (dkeys kw) /\
  (forall p v, In p (s_params sg) -> p_default p = Some v -> plain v = true) /\
  (exists bound, bind_args sg args kw = Ok bound /\
     forall k v, dget bound k = Some v ->
       plain v = true \/
       exists cl r path, v = VObj cl r /\ In (r, path) made /\ default_of sg k = None) /\
  exists p, recorded_parameters E d id sg args kw = Ok p /\
    forall k v, In (k, v) p -> is_object v = true \/ sendable txt pure made v.

(** Names as the library's classes have them: constructors are decorated with
    a dotted path, methods with a plain name. *)
Definition fine txt pure E d (c : client) (a : action) : Prop :=
  match a with
  | New cl path pre post sg args kw =>
      contains "." path = true /\ contains "/" path = false /\ contains "/" cl = false /\
      fine_args txt pure E d (cl_made c) (counter (cl_reg c) + Z.of_nat pre + 1) sg args kw
  | Call r cl m sg args kw =>
      (exists path, In (r, path) (cl_made c)) /\
      m <> "" /\ m <> "__init__" /\ contains "." m = false /\
      contains "/" m = false /\ contains "/" cl = false /\
      fine_args txt pure E d (cl_made c) (oid_in (cl_reg c) r) sg args kw
  end.
Fixpoint fine_session txt pure E d (c : client) (l : list action) : Prop :=
  match l with
  | [] => True
  | a :: l' => fine txt pure E d c a /\ fine_session txt pure E d (act E d c a) l'
  end.

(** The backend has the classes and methods used. *)
Definition offers (B : backend) (c : client) (l : list action) (E : cenv) (d : registry) : Prop :=
  (forall cl path pre post sg args kw, In (New cl path pre post sg args kw) l -> b_class B path = true) /\
  (forall r cl m sg args kw path, In (Call r cl m sg args kw) l ->
     In (r, path) (cl_made (acts E d c l)) -> b_meth B path m = true).

(** The server does not run out of step: either it has already given out more
    identifiers than the client (as when a program loads what it saved), or it
    starts no earlier and makes at least as many objects for each creation (as a
    new process does). *)
Definition in_step (B : backend) (c c' : client) (rs : rstate) (l : list action) : Prop :=
  (counter (cl_reg c') <= counter rs)%Z \/
  (counter (cl_reg c) <= counter rs)%Z /\
  (forall cl path pre post sg args kw kws pre' post', In (New cl path pre post sg args kw) l ->
     b_new B path kws = Ok (pre', post') -> (pre + post <= pre' + post')%nat).

(** A client that has made nothing yet: nothing recorded, recording on, the
    queue writable, whatever was done with queues before. *)
Definition starting (c : client) : Prop :=
  cl_made c = [] /\ (exists h, cl_sys c = history h) /\ rec (cl_sys c) = true /\
  commands (cl_sys c) (cur (cl_sys c)) = [] /\ readonly (cl_sys c) (cur (cl_sys c)) = false.
(** A server ready to load: its active queue is writable. *)
Definition ready (s : sys) : Prop := (exists h, s = history h) /\ readonly s (cur s) = false.

(** A step that the backend's own class refused: it received the arguments and
    raised [e]. *)
Definition refused txt pure oidf E d made bs (B : backend) (a : action) (e : exn) : Prop :=
  match a with
  | New _ path _ _ sg args kw =>
      exists kws, received txt pure oidf E d made bs sg args kw kws /\ b_new B path kws = Err e
  | Call r _ m sg args kw =>
      exists kws path R, stands_for made bs r path R /\
        received txt pure oidf E d made bs sg args kw kws /\ b_call B path m R kws = Err e
  end.

(** ** A session, for the examples: a canvas, a viewport on it, the canvas is
    rendered. *)
Definition two_classes : cenv := mkE (fun c => [c; "object"]) (fun _ => "object") (fun _ => ["object"]).
Definition str_to_color : registry := [(("str", "Color"), 9%nat)].
Definition as_text (f : func) (v : value) : res value := Ok (VSeq [v; VFloat 3]).
Definition a_canvas : action :=
  New "Canvas" "core.Canvas" 0 0
    (mkS [mkP "width" None (Some ["int"]); mkP "height" None (Some ["int"]); mkP "dpi" None (Some ["float"])] [])
    [VInt 512; VInt 256] [("dpi", VFloat 100)].
Definition a_viewport (r : ref) : action :=
  New "Viewport" "core.Viewport" 0 0
    (mkS [mkP "canvas" None (Some ["Canvas"]); mkP "x" None (Some ["Transform"; "float"; "int"]); mkP "color" None (Some ["Color"])] [])
    [VObj "Canvas" r; VInt 0] [("color", VStr "red")].
Definition a_render (r : ref) : action :=
  Call r "Canvas" "render" (mkS [mkP "target" None (Some ["str"])] []) [VStr "out.png"] [].
Definition a_session : list action := [a_canvas; a_viewport 0%nat; a_render 0%nat].
Definition new_process : client := mkClient rinit sinit [].
(** A process that has made an object without recording it (recording was
    off). *)
Definition used_process : client := mkClient (mkR 1 true [] [1%Z]) sinit [].
Definition late_session : list action := [a_canvas; a_viewport 1%nat; a_render 1%nat].
(** A backend in which nothing raises. *)
Definition willing : backend := mkB (fun _ => true) (fun _ _ => Ok (0%nat, 0%nat)) (fun _ _ => true) (fun _ _ _ _ => Ok VNone).
Definition no_text (c : string) (z : Z) : option jval := None.
Definition saving (f : func) (v : value) : list call * res value := ([], as_text f v).

(** An array (the atom 5) and its buffer: the program makes the buffer, then points
    whose positions are the array; the registered conversion of arrays gives that buffer
    (gsp_matplotlib/__init__.py:49-67). *)
Definition array_to_buffer : registry := [(("tracked", "Buffer"), 7%nat)].
Definition its_buffer (f : func) (v : value) : res value := Ok (VObj "Buffer" 0%nat).
Definition finding (f : func) (v : value) : list call * res value := ([], its_buffer f v).
Definition a_buffer : action :=
  New "Buffer" "core.Buffer" 0 0
    (mkS [mkP "count" None (Some ["int"]); mkP "dtype" None (Some ["str"]); mkP "data" None (Some ["bytes"])] [])
    [VInt 2; VStr "float32"; VBytes [0; 1; 2; 3; 4; 5; 6; 7]%N] [].
Definition some_points : action :=
  New "Points" "visual.Points" 0 0
    (mkS [mkP "positions" None (Some ["Transform"; "Buffer"]); mkP "sizes" None (Some ["Transform"; "Buffer"; "float"])] [])
    [VAtom "tracked" 5; VFloat 25] [].
Definition array_session : list action := [a_buffer; some_points].
