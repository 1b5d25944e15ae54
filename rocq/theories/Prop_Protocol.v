(** C81, C82: recorded creations and the classes of the backend. *)
From Verif Require Import Base Registry Convert Command Execute Protocol ProtocolSpec ProtocolFacts.
Local Open Scope string_scope.

(** A creation is recorded under the name of its class ... *)
Theorem C81_protocol k : In k protocol -> k_recorded k = k_path k.
Proof. exact (recorded_names k). Qed.
Print Assumptions C81_protocol.
(** ... in the backend too, except for segments, recorded as points. *)
Theorem C81_backend_refuted k : In k matplotlib -> (k_recorded k = k_path k <-> k_path k <> "visual.Segments").
Proof. exact (recorded_backend k). Qed.
Print Assumptions C81_backend_refuted.
(** So segments created with the backend cannot be loaded from a file: neither by the
    backend nor by the protocol. *)
Theorem C81_segments_refuted body meth call classes ap k s cid p i oid kw : In k matplotlib -> k_path k = "visual.Segments" ->
  dget p "id" = Some i -> oid_of i = Some oid -> resolve (objects s) classes ap p = Ok kw -> arguments_of (k_sig k) kw ->
  execute (backend_of matplotlib body meth call) classes ap s (reloaded k cid p) = Err TypeError /\
  execute (backend_of protocol body meth call) classes ap s (reloaded k cid p) = Err TypeError.
Proof. exact (segments_lost body meth call classes ap k s cid p i oid kw). Qed.
Print Assumptions C81_segments_refuted.

(** Creations of core and visual classes, but for data, are executed by the backend:
    the class of the same name is given every argument of the creation under the same
    name, and the only errors are its own. *)
Theorem C82_executed_partial body meth call classes ap k s cid p i oid kw : In k protocol -> is_transform (k_path k) = false -> k_path k <> "core.Data" ->
  dget p "id" = Some i -> oid_of i = Some oid -> resolve (objects s) classes ap p = Ok kw -> arguments_of (k_sig k) kw ->
  exists b, (forall n, dget b n = dget kw n) /\
  match execute (backend_of matplotlib body meth call) classes ap s (reloaded k cid p) with
  | Ok (_, o) => rebuilt k kw o /\ exists pp, body (k_path k) b = Ok pp
  | Err e => body (k_path k) b = Err e
  end.
Proof. exact (executed body meth call classes ap k s cid p i oid kw). Qed.
Print Assumptions C82_executed_partial.
(** Data and every transform are not: the backend has no such class. *)
Theorem C82_missing_refuted body meth call classes ap k s cid p i oid kw : In k protocol -> is_transform (k_path k) = true \/ k_path k = "core.Data" ->
  dget p "id" = Some i -> oid_of i = Some oid -> resolve (objects s) classes ap p = Ok kw ->
  execute (backend_of matplotlib body meth call) classes ap s (reloaded k cid p) = Err AttributeError.
Proof. exact (not_offered body meth call classes ap k s cid p i oid kw). Qed.
Print Assumptions C82_missing_refuted.

(** Segments recorded by the protocol are executed; recorded by the backend they are
    not; and a transform is missing. *)
Example C81_case (ap : func -> value -> res value) :
  resolve (objects a_state) (fun _ => "Buffer") ap segments_params = Ok segments_kw /\ arguments_of segments_sig segments_kw /\
  In (mkCls "visual.Segments" "visual.Points" segments_sig) matplotlib /\ In (mkCls "visual.Segments" "visual.Segments" segments_sig) protocol /\
  is_ok (execute (backend_of matplotlib (fun _ _ => Ok (0%nat, 0%nat)) (fun _ _ => true) (fun _ _ _ _ => Ok VNone)) (fun _ => "Buffer") ap a_state
    (reloaded (mkCls "visual.Segments" "visual.Segments" segments_sig) 1 segments_params)) = true.
Proof.
  split; [reflexivity|]. split; [|repeat split; cbn; tauto]. split; [repeat (constructor; [cbn; intuition discriminate|]); constructor|]. cbn. tauto.
Qed.
Example C82_case (ap : func -> value -> res value) : exists k kw, In k protocol /\ is_transform (k_path k) = true /\
  resolve (objects a_state) (fun _ => "Buffer") ap [("id", VOid 3); ("buffer(id)", VOid 1)]%Z = Ok kw /\ arguments_of (k_sig k) kw.
Proof.
  exists (mkCls "transform.X" "transform.X" (takes [opt "buffer"])), [("buffer", VObj "Buffer" 0%nat)]. split; [cbn; tauto|]. split; [reflexivity|]. split; [reflexivity|].
  split; [repeat (constructor; [cbn; intuition discriminate|]); constructor|]. cbn. tauto.
Qed.

(** The four operators take the parameters of the class they derive from, but for the
    operator itself. *)
Theorem C82_operators k o : In k protocol -> In o protocol -> k_path o = "transform.Operator" ->
  In (k_path k) ["transform.Add"; "transform.Sub"; "transform.Mul"; "transform.Div"] ->
  s_params (k_sig o) = req "operator" :: s_params (k_sig k).
Proof. exact (operators k o). Qed.
Print Assumptions C82_operators.
Example C82_operators_case : exists k o, In k protocol /\ In o protocol /\ k_path o = "transform.Operator" /\ k_path k = "transform.Mul".
Proof.
  exists (mkCls "transform.Mul" "transform.Mul" (takes [opt "left"; opt "right"])),
         (mkCls "transform.Operator" "transform.Operator" (takes [req "operator"; opt "left"; opt "right"])).
  repeat split; cbn [protocol In]; auto 40.
Qed.
