(** Sessions that use the classes of the library. *)
From Verif Require Import Base Registry Convert Command CommandSpec Queue QueueSpec Base64 Execute Json Session SessionSpec Protocol ProtocolSpec ProtocolFacts.
Open Scope string_scope.

(** Only classes of the protocol that the matplotlib backend has too, called with
    the parameters of the protocol (annotations and defaults do not matter). *)
Definition library_step (a : action) : Prop :=
  match a with
  | New _ path _ _ sg _ _ =>
      exists k, In k protocol /\ k_path k = path /\ is_transform path = false /\ path <> "core.Data" /\
                p_names sg = p_names (k_sig k)
  | Call _ _ _ _ _ _ => True
  end.
(** The backend's constructors make at least as many objects as those of the
    protocol, or the loading process is ahead. *)
Definition body_in_step (body : string -> dict string value -> res (nat * nat)) (c c' : client) (rs : rstate) (l : list action) : Prop :=
  (counter (cl_reg c') <= counter rs)%Z \/
  (counter (cl_reg c) <= counter rs)%Z /\
  (forall cl path pre post sg args kw b pre' post', In (New cl path pre post sg args kw) l ->
     body path b = Ok (pre', post') -> (pre + post <= pre' + post')%nat).
(** A step refused by the body of a constructor or of a method, which had received
    its arguments. *)
Definition body_refused txt pure oidf E d made bs
  (body : string -> dict string value -> res (nat * nat)) (call : string -> string -> ref -> dict string value -> res value)
  (a : action) (e : exn) : Prop :=
  match a with
  | New _ path _ _ sg args kw =>
      exists b, received txt pure oidf E d made bs sg args kw b /\ body path b = Err e
  | Call r _ m sg args kw =>
      exists kws path R, stands_for made bs r path R /\
        received txt pure oidf E d made bs sg args kw kws /\ call path m R kws = Err e
  end.

(** A session, for the examples. *)
Definition full_canvas : action :=
  New "Canvas" "core.Canvas" 0 0
    (mkS [mkP "width" None (Some ["int"]); mkP "height" None (Some ["int"]); mkP "dpi" None (Some ["float"])] [])
    [VInt 512; VInt 256] [("dpi", VFloat 100)].
Definition full_viewport : action :=
  New "Viewport" "core.Viewport" 0 0
    (mkS [mkP "canvas" None (Some ["Canvas"]); mkP "x" None (Some ["Transform"; "float"; "int"]); mkP "y" None (Some ["Transform"; "float"; "int"]);
          mkP "width" None (Some ["Transform"; "float"; "int"]); mkP "height" None (Some ["Transform"; "float"; "int"]); mkP "color" None (Some ["Color"])] [])
    [VObj "Canvas" 0%nat; VInt 0; VInt 0; VInt 512; VInt 256] [("color", VStr "red")].
Definition library_session : list action := [full_canvas; full_viewport; a_render 0%nat].
Definition quiet_body (path : string) (b : dict string value) : res (nat * nat) := Ok (0%nat, 0%nat).
Definition quiet_call (path m : string) (r : ref) (b : dict string value) : res value := Ok VNone.
(** A session with a unit of length. *)
Definition a_pixel : action := New "Pixel" "transform.Pixel" 0 0 (mkS [] []) [] [].
Definition pixel_session : list action := [full_canvas; a_pixel; full_viewport].
