(** C06-C08: the converter registry. *)
From Verif Require Import Base Convert ConvertSpec ConvertFacts.
Open Scope string_scope.

(** C06. One registration: on a free pair it succeeds and changes only that
    pair; on a taken pair it raises TypeError and the registry is the same. *)
Theorem C06_register_frame : forall d s dst f,
  (dget d (s, dst) = None ->
     snd (register d (One s) dst f) = Ok f /\
     forall p, dget (fst (register d (One s) dst f)) p =
               if eqb p (s, dst) then Some f else dget d p) /\
  (dget d (s, dst) <> None -> register d (One s) dst f = (d, Err TypeError)).
Proof. exact register_one. Qed.
Print Assumptions C06_register_frame.

Theorem C06_unregister_frame : forall d ss dst p,
  dget (unregister d ss dst) p =
  if existsb (fun s => eqb p (s, dst)) (match ss with One s => [s] | Many l => l end)
  then None else dget d p.
Proof. exact unregister_get. Qed.
Print Assumptions C06_unregister_frame.

(** History: the converter of a pair is the first one registered after the
    last unregistration of that pair. *)
Theorem C06_history : forall h p,
  dget (crun [] (map to_cop h)) p = first_reg (after_last_unreg (events p h)).
Proof. exact history_lookup. Qed.
Print Assumptions C06_history.

Example C06_example :
  let h := [SReg "a" "t" 1; SReg "a" "t" 2; SReg "b" "t" 3; SUnreg "a" "t"; SReg "a" "t" 4; SReg "a" "t" 5] in
  dget (crun [] (map to_cop h)) ("a", "t") = Some 4 /\
  dget (crun [] (map to_cop h)) ("b", "t") = Some 3.
Proof. split; reflexivity. Qed.

(** Any history, groups of sources included: a step takes a converter away only by
    unregistering its pair, replaces none, and adds only the one it registers. *)
Theorem C06_never_replaced : forall ops o p, let d := crun [] ops in let d' := crun [] (ops ++ [o])%list in
  (unregisters o p -> dget d' p = None) /\
  (~ unregisters o p -> forall f, dget d p = Some f -> dget d' p = Some f) /\
  (forall f, dget d p = None -> dget d' p = Some f -> registers o p f).
Proof. exact any_history. Qed.
Print Assumptions C06_never_replaced.
Example C06_groups :
  let d := crun [] [Reg (Many ["a"; "b"]) "t" 1; Reg (Many ["c"; "b"; "e"]) "t" 2; Unreg (Many ["a"; "x"]) "t"; Reg (One "a") "t" 3] in
  map (fun s => dget d (s, "t")) ["a"; "b"; "c"; "e"] = [Some 3; Some 1; Some 2; None].
Proof. reflexivity. Qed.

(** C07. Not all-or-nothing. *)
Theorem C07_group_registration_refuted : exists d l dst f,
  snd (register d (Many l) dst f) = Err TypeError /\
  exists p, dget (fst (register d (Many l) dst f)) p <> dget d p.
Proof. exact register_many_not_atomic. Qed.
Print Assumptions C07_group_registration_refuted.

(** What a group registration does: it registers a prefix of the sources, the
    longest one without a taken or repeated source; it succeeds iff that is
    all of them. *)
Theorem C07_group_registration_exact : forall l d dst f,
  exists k, (k <= length l)%nat /\
    (forall p, dget (fst (register d (Many l) dst f)) p =
       if existsb (fun s => eqb p (s, dst)) (firstn k l) then Some f else dget d p) /\
    (snd (register d (Many l) dst f) = Ok f <-> k = length l) /\
    (k <> length l -> snd (register d (Many l) dst f) = Err TypeError /\
       exists s, nth_error l k = Some s /\
         (dget d (s, dst) <> None \/ In s (firstn k l))) /\
    (forall s, In s (firstn k l) -> dget d (s, dst) = None).
Proof. exact register_many_spec. Qed.
Print Assumptions C07_group_registration_exact.

Theorem C07_group_registration_free : forall d l dst f,
  NoDup l -> (forall s, In s l -> dget d (s, dst) = None) ->
  snd (register d (Many l) dst f) = Ok f /\
  forall p, dget (fst (register d (Many l) dst f)) p =
            if existsb (fun s => eqb p (s, dst)) l then Some f else dget d p.
Proof. exact register_many_all. Qed.
Print Assumptions C07_group_registration_free.

Example C07_example :
  let d := [(("c", "t"), 7)] in
  NoDup ["a"; "b"] /\ (forall s, In s ["a"; "b"] -> dget d (s, "t") = None).
Proof.
  split; [repeat constructor; cbn; intuition discriminate|].
  intros s [<-|[<-|[]]]; reflexivity.
Qed.

(** C08. The lookup tries the candidates in order. *)
Theorem C08_lookup_order : forall d v dst n,
  (dst = DType n \/ dst = DStr n) ->
  get_converter d v dst = Ok (first_found d (candidates (src_of d v dst) (v_bases v) n)).
Proof. exact get_converter_order. Qed.
Print Assumptions C08_lookup_order.

(** Which source name is used: a type's own name; a string that names a
    registered source (only when the destination is given by name); otherwise
    the class of the value. *)
Theorem C08_source_name : forall d v dst,
  (forall n, v_typename v = Some n -> src_of d v dst = n) /\
  (v_typename v = None ->
    (forall s n f, v_str v = Some s -> dst = DStr n ->
       (dget d (s, n) = Some f \/ dget d ("*", n) = Some f) -> src_of d v dst = s) /\
    (forall s n, v_str v = Some s -> dst = DStr n ->
       dget d (s, n) = None -> dget d ("*", n) = None -> src_of d v dst = v_class v) /\
    ((v_str v = None \/ forall n, dst <> DStr n) -> src_of d v dst = v_class v)).
Proof. exact src_of_spec. Qed.
Print Assumptions C08_source_name.

Theorem C08_lookup_none : forall d v dst n,
  (dst = DType n \/ dst = DStr n) ->
  (get_converter d v dst = Ok None <->
   dget d (src_of d v dst, n) = None /\ dget d ("*", n) = None /\
   forall b, In b (v_bases v) -> dget d (b, n) = None).
Proof. exact get_converter_none. Qed.
Print Assumptions C08_lookup_none.

(** [convert] applies the converter found; every failure is a ValueError. *)
Theorem C08_convert_outcome : forall B (apply : func -> pval -> res B) d v dst n,
  (dst = DType n \/ dst = DStr n) ->
  convert apply d v dst =
  match first_found d (candidates (src_of d v dst) (v_bases v) n) with
  | Some f => match apply f v with Ok b => Ok b | Err _ => Err ValueError end
  | None => Err ValueError
  end.
Proof. exact @convert_outcome. Qed.
Print Assumptions C08_convert_outcome.

Example C08_example :
  let d := [(("float", "int"), 1); (("*", "str"), 2); (("tuple", "list"), 3)] in
  let color := mkV None None "Color" ["tuple"] in
  get_converter d color (DStr "list") = Ok (Some 3) /\
  get_converter d color (DType "str") = Ok (Some 2) /\
  get_converter d color (DType "int") = Ok None.
Proof. repeat split. Qed.
