(** C10, C11, C12: what a recorded command carries, how its object arguments
    come back, and what the type check accepts. *)
From Verif Require Import Base Registry Convert Command CommandSpec CommandFacts.
Open Scope string_scope.

(** C10.  For every signature and every call without protocol objects that
    Python accepts, the recorded parameters are exactly "id" and the
    parameters of the method, each once, bound as Python bound them. *)
Theorem C10_recorded_arguments_exact id s args kwargs bound :
  valid_sig s -> NoDup (dkeys kwargs) -> bind_args s args kwargs = Ok bound ->
  (forall v, In v args -> is_object v = false) ->
  (forall k v, In (k, v) kwargs -> is_object v = false) ->
  let p := build_parameters id s args kwargs in
  NoDup (dkeys p) /\
  (forall k, In k (dkeys p) <-> k = "id" \/ In k (p_names s)) /\
  dget p "id" = Some (VOid id) /\
  (forall k, In k (p_names s) -> dget p k = dget bound k).
Proof. exact (record_exact id s args kwargs bound). Qed.
Print Assumptions C10_recorded_arguments_exact.

(** C10.  The type check keeps the keys and replaces a value only by a delayed
    conversion of that same value, found for one of its classes and one of the
    annotated types, before the first the value belongs to.  It is not replaced only if
    no such conversion is registered (or it is None). *)
Theorem C10_check_keeps_values E d ann p p' :
  check_parameters E d ann p = Ok p' ->
  dkeys p' = dkeys p /\
  forall k, match dget p k with
            | Some v => exists v', dget p' k = Some v' /\
                (v' = v /\ untouched E d (dget ann k) v \/ exists a b f, tried E (dget ann k) v a /\ In b (mro E (class_of v)) /\ conv_for E d b a = Some f /\ v' = VConv f v) /\
                (dget ann k = None -> v' = v)
            | None => dget p' k = None end.
Proof. exact (check_parameters_get E d ann p p'). Qed.
Print Assumptions C10_check_keeps_values.

(** C11.  An object argument of a parameter without default is resolved to
    the object now registered under its id. *)
Theorem C11_object_argument_resolves E d id s args kwargs bound p oidf cid cn mn c objs cls ap kw :
  valid_sig s -> NoDup (dkeys kwargs) -> bind_args s args kwargs = Ok bound ->
  recorded_parameters E d id s args kwargs = Ok p -> mk_command oidf cid cn mn p = Ok c ->
  resolve objs cls ap (c_params c) = Ok kw ->
  forall k cl r, dget bound k = Some (VObj cl r) -> default_of s k = None ->
    exists r', dget objs (oidf r) = Some r' /\ dget kw k = Some (VObj (cls r') r').
Proof. exact (replay_object E d id s args kwargs bound p oidf cid cn mn c objs cls ap kw). Qed.
Print Assumptions C11_object_argument_resolves.

(** C11.  Any other argument is passed through the converter chosen for it, or as it
    was if there is none. *)
Theorem C11_other_arguments_kept E d id s args kwargs bound p oidf cid cn mn c objs cls ap kw :
  valid_sig s -> NoDup (dkeys kwargs) -> bind_args s args kwargs = Ok bound ->
  recorded_parameters E d id s args kwargs = Ok p -> mk_command oidf cid cn mn p = Ok c ->
  resolve objs cls ap (c_params c) = Ok kw ->
  forall k v, dget bound k = Some v -> plain v = true ->
    exists x, dget kw k = Some x /\ (x = v /\ untouched E d (dget (annotations (s_params s)) k) v \/ exists f, ap f v = Ok x /\
       exists a b, tried E (dget (annotations (s_params s)) k) v a /\ In b (mro E (class_of v)) /\ conv_for E d b a = Some f).
Proof. exact (replay_value E d id s args kwargs bound p oidf cid cn mn c objs cls ap kw). Qed.
Print Assumptions C11_other_arguments_kept.

(** C11.  Nothing but parameters of the method is passed. *)
Theorem C11_no_other_arguments E d id s args kwargs bound p oidf cid cn mn c objs cls ap kw :
  valid_sig s -> NoDup (dkeys kwargs) -> bind_args s args kwargs = Ok bound ->
  recorded_parameters E d id s args kwargs = Ok p -> mk_command oidf cid cn mn p = Ok c ->
  resolve objs cls ap (c_params c) = Ok kw ->
  forall k, In k (dkeys kw) -> In k (p_names s).
Proof. exact (replay_no_extra E d id s args kwargs bound p oidf cid cn mn c objs cls ap kw). Qed.
Print Assumptions C11_no_other_arguments.

(** C11.  Resolution succeeds when every object argument is registered and
    converters return. *)
Theorem C11_resolution_succeeds E d id s args kwargs bound p oidf cid cn mn c objs cls ap :
  valid_sig s -> NoDup (dkeys kwargs) -> bind_args s args kwargs = Ok bound ->
  recorded_parameters E d id s args kwargs = Ok p -> mk_command oidf cid cn mn p = Ok c ->
  (forall k v, dget bound k = Some v -> plain v = true \/ exists cl r, v = VObj cl r /\ dget objs (oidf r) <> None) ->
  (forall k v, default_of s k = Some v -> plain v = true) ->
  (forall f v, exists x, ap f v = Ok x) ->
  exists kw, resolve objs cls ap (c_params c) = Ok kw.
Proof. exact (replay_succeeds E d id s args kwargs bound p oidf cid cn mn c objs cls ap). Qed.
Print Assumptions C11_resolution_succeeds.

(** C11 fails for parameters with a default: the replayed call always gets the
    default (or its conversion), never the object. *)
Theorem C11_object_with_default_lost E d id s args kwargs bound p oidf cid cn mn c objs cls ap kw :
  valid_sig s -> NoDup (dkeys kwargs) -> bind_args s args kwargs = Ok bound ->
  recorded_parameters E d id s args kwargs = Ok p -> mk_command oidf cid cn mn p = Ok c ->
  resolve objs cls ap (c_params c) = Ok kw ->
  forall k cl r dv, dget bound k = Some (VObj cl r) -> default_of s k = Some dv -> plain dv = true ->
    exists x, dget kw k = Some x /\ (x = dv \/ exists f, ap f dv = Ok x).
Proof. exact (replay_object_lost E d id s args kwargs bound p oidf cid cn mn c objs cls ap kw). Qed.
Print Assumptions C11_object_with_default_lost.

Theorem C11_object_with_default_refuted :
  exists s args kwargs bound p c kw,
    valid_sig s /\ NoDup (dkeys kwargs) /\ bind_args s args kwargs = Ok bound /\
    recorded_parameters E0 [] 1 s args kwargs = Ok p /\ mk_command Z.of_nat 1 "Transform" "set_x" p = Ok c /\
    resolve [(7%Z, 7%nat)] (fun _ => "Colormap") (fun _ v => Ok v) (c_params c) = Ok kw /\
    dget bound "colormap" = Some (VObj "Colormap" 7%nat) /\ dget kw "colormap" = Some VNone.
Proof. exact object_default_lost_witness. Qed.
Print Assumptions C11_object_with_default_refuted.

(** C11 fails for identifiers passed as arguments: the argument is dropped. *)
Theorem C11_identifier_argument_refuted :
  exists s args kwargs bound p c,
    valid_sig s /\ NoDup (dkeys kwargs) /\ bind_args s args kwargs = Ok bound /\
    recorded_parameters E0 [] 1 s args kwargs = Ok p /\ mk_command Z.of_nat 1 "Foo" "bar" p = Ok c /\
    dget bound "other" = Some (VOid 7) /\
    resolve [(7%Z, 7%nat)] (fun _ => "Foo") (fun _ v => Ok v) (c_params c) = Ok [].
Proof. exact oid_dropped_witness. Qed.
Print Assumptions C11_identifier_argument_refuted.

(** C12.  A call is recorded without error exactly when every checked value is
    acceptable for its annotation; otherwise ValueError. *)
Theorem C12_accepted_iff E d id s args kwargs bound :
  valid_sig s -> NoDup (dkeys kwargs) -> bind_args s args kwargs = Ok bound ->
  (exists p, recorded_parameters E d id s args kwargs = Ok p) <->
  (forall k anns v, dget (annotations (s_params s)) k = Some anns ->
     checked_value s bound k = Some v -> acceptable E d anns v).
Proof. exact (accept_iff E d id s args kwargs bound). Qed.
Print Assumptions C12_accepted_iff.

Theorem C12_rejection_is_value_error E d id s args kwargs e :
  recorded_parameters E d id s args kwargs = Err e -> e = ValueError.
Proof. exact (check_parameters_error E d _ _ e). Qed.
Print Assumptions C12_rejection_is_value_error.

(** C12.  A value of an annotated type is recorded as is when no converter
    leads from one of its classes to a type listed before. *)
Theorem C12_matching_value_kept E d v pre a post :
  belongs E v a ->
  (forall a' b, In a' pre -> In b (mro E (class_of v)) -> conv_for E d b a' = None) ->
  check_types E d (pre ++ a :: post)%list v (false, v) = Ok v.
Proof. exact (check_types_keeps E d v pre a post). Qed.
Print Assumptions C12_matching_value_kept.

(** ... and not in general: with a converter to an earlier member of the
    union, a value that already is of a listed type is recorded as a
    conversion. *)
Theorem C12_matching_value_kept_refuted :
  exists d anns v a, In a anns /\ belongs E0 v a /\
    check_types E0 d anns v (false, v) = Ok (VConv 3%nat v).
Proof. exact matching_converted_witness. Qed.
Print Assumptions C12_matching_value_kept_refuted.

(** C12 fails for protocol objects: they are never checked. *)
Theorem C12_objects_unchecked_refuted :
  exists s args p, dget (annotations (s_params s)) "size" = Some ["float"] /\
    bind_args s args [] = Ok [("size", VObj "Canvas" 4%nat)] /\
    ~ acceptable E0 [] ["float"] (VObj "Canvas" 4%nat) /\
    recorded_parameters E0 [] 1 s args [] = Ok p.
Proof. exact object_unchecked_witness. Qed.
Print Assumptions C12_objects_unchecked_refuted.

(** ** The hypotheses are met by non-trivial cases *)
Definition ex_sig : sig :=
  mkS [mkP "canvas" None (Some ["Canvas"]); mkP "x" (Some (VInt 0)) (Some ["int"; "float"]);
       mkP "color" (Some VNone) (Some ["Color"])] ["tmp"].
Definition ex_args := [VObj "Canvas" 5%nat; VFloat 2].
Definition ex_kwargs := [("color", VStr "red")].
Definition ex_registry : registry := [(("str", "Color"), 9%nat)].

Example ex_valid : valid_sig ex_sig.
Proof.
  split; [|split].
  - repeat constructor; cbn; intuition discriminate.
  - intros p [<-|[<-|[<-|[]]]]; split; (discriminate || reflexivity).
  - intros p d [<-|[<-|[<-|[]]]] H; try discriminate; now injection H as <-.
Qed.
Example ex_recorded :
  bind_args ex_sig ex_args ex_kwargs = Ok [("canvas", VObj "Canvas" 5%nat); ("x", VFloat 2); ("color", VStr "red")] /\
  recorded_parameters E0 ex_registry 3 ex_sig ex_args ex_kwargs =
    Ok [("id", VOid 3); ("canvas(id)", VObj "Canvas" 5%nat); ("x", VFloat 2); ("color", VConv 9%nat (VStr "red"))].
Proof. split; reflexivity. Qed.
Example ex_resolved :
  resolve [(5%Z, 8%nat)] (fun _ => "Canvas") (fun _ v => Ok (VSeq [v]))
    [("id", VOid 3); ("canvas(id)", VOid 5); ("x", VFloat 2); ("color", VConv 9%nat (VStr "red"))]
  = Ok [("canvas", VObj "Canvas" 8%nat); ("x", VFloat 2); ("color", VSeq [VStr "red"])].
Proof. reflexivity. Qed.
Example ex_rejected :
  recorded_parameters E0 [] 3 ex_sig ex_args ex_kwargs = Err ValueError.
Proof. reflexivity. Qed.
Example ex_no_objects :
  build_parameters 3 (mkS [mkP "a" None None; mkP "b" (Some (VInt 1)) None; mkP "c" (Some VNone) None] ["t"])
    [VStr "u"] [("c", VInt 4)] = [("id", VOid 3); ("a", VStr "u"); ("c", VInt 4); ("b", VInt 1)].
Proof. reflexivity. Qed.
