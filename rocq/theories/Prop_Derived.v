(** C93: what saving and loading keeps of objects of a program's own classes. *)
From Verif Require Import Base Registry Convert Command CommandSpec Execute Session Derived DerivedSpec DerivedFacts.
Open Scope string_scope.

Theorem C93_session_partial : forall E d ap B l c c' s,
  Forall (fine_step B) l -> able s ->
  do_steps E d fresh l = Ok c -> do_converted E d ap fresh l = Ok c' ->
  exists s', redo_all E d ap B (loading s) (p_log c) = Ok s' /\ rebuilt_as c (p_objs c') s' /\ untouched s s'.
Proof. exact session. Qed.
Print Assumptions C93_session_partial.

Theorem C93_exact_partial : forall E d ap B l c s,
  Forall (fine_step B) l -> able s -> all_kept E d fresh l -> do_steps E d fresh l = Ok c ->
  exists s', redo_all E d ap B (loading s) (p_log c) = Ok s' /\ rebuilt_as c (p_objs c) s' /\ untouched s s'.
Proof. exact exact_session. Qed.
Print Assumptions C93_exact_partial.

(** A constructor of its own with other parameter names can never be run again. *)
Theorem C93_names_refuted : forall E d ap B k o p q i args kw cmd s,
  k_own k = Some o -> plain_sig (k_sig k) -> k_path k = None -> dget B (k_name k) = Some k ->
  (exists prm, In prm (s_params (o_sig o)) /\ p_default prm = None /\ ~ In (p_name prm) (p_names (k_sig k))) \/
  (exists n, In n (p_names (k_sig k)) /\ ~ In n (p_names (o_sig o))) ->
  (forall b h, o_hand o b = Ok h -> plain_call [] h) ->
  p_on p = true -> make E d p k args kw = Ok (q, i) -> p_log q = (p_log p ++ [cmd])%list ->
  is_ok (redo E d ap B s (reload cmd)) = false.
Proof. exact other_names. Qed.
Print Assumptions C93_names_refuted.

(** With the constructor of a library class inherited, the object comes back as one of
    the library class. *)
Theorem C93_class_refuted : forall E d ap B k k' path p q i args kw cmd s s',
  k_path k = Some path -> contains "." path = true -> dget B path = Some k' ->
  p_on p = true -> make E d p k args kw = Ok (q, i) -> p_log q = (p_log p ++ [cmd])%list ->
  redo E d ap B s (reload cmd) = Ok s' -> length (p_objs s) = length (heap (p_reg s)) ->
  exists z a, dget (c_params cmd) "id" = Some z /\
    match oid_of z with Some z => lookup (p_reg s') z = Some (length (p_objs s)) | None => False end /\
    nth_error (p_objs s') (length (p_objs s)) = Some (k', a).
Proof. exact other_class. Qed.
Print Assumptions C93_class_refuted.

(** A constructor that changes what it hands over changes it again. *)
Theorem C93_twice_refuted : exists k o c s',
  k_own k = Some o /\ p_names (o_sig o) = p_names (k_sig k) /\
  do_steps E1 [] fresh [New k [VInt 1] []] = Ok c /\
  redo_all E1 [] float_to_int [(k_name k, k)] (loading fresh) (p_log c) = Ok s' /\
  p_objs c = [(k, [("value", VInt 2)])] /\ p_objs s' = [(k, [("value", VInt 4)])].
Proof. exact twice_applied. Qed.
Print Assumptions C93_twice_refuted.

(** The examples of the repository: the objects come back, in a new process and in one
    that has made objects; where the program has 124.0, the loaded object has 124. *)
Example C93_foo_fine : Forall (fine_step [("Foo", Foo)]) foo_program /\ able fresh /\ able busy.
Proof. exact foo_fine. Qed.
Example C93_foo :
  match do_steps E1 conversions fresh foo_program, do_converted E1 conversions float_to_int fresh foo_program with
  | Ok c, Ok c' =>
      p_objs c = [(Foo, [("value", VFloat 124)])] /\ p_objs c' = [(Foo, [("value", VInt 124)])] /\
      match redo_all E1 conversions float_to_int [("Foo", Foo)] (loading busy) (p_log c) with
      | Ok s => skipn 5 (p_objs s) = [(Foo, [("value", VInt 124)])] /\ lookup (p_reg s) 1 = Some 5%nat
      | Err _ => False end
  | _, _ => False end.
Proof. vm_compute. repeat split. Qed.
Example C93_bar_fine : Forall (fine_step [("Foo", Foo); ("Bar", Bar)]) bar_program /\ all_kept E1 conversions fresh bar_program.
Proof. exact bar_fine. Qed.
Example C93_bar :
  match do_steps E1 conversions fresh bar_program with
  | Ok c => p_objs c = [(Bar, [("value", VInt 3)]); (Foo, [("value", VInt 3)])] /\
      match redo_all E1 conversions float_to_int [("Foo", Foo); ("Bar", Bar)] (loading fresh) (p_log c) with
      | Ok s => p_objs s = p_objs c
      | Err _ => False end
  | Err _ => False end.
Proof. vm_compute. repeat split. Qed.
Example C93_renamed :
  match do_steps E1 [] fresh [New Renamed [VInt 1] []] with
  | Ok c => p_objs c = [(Renamed, [("value", VInt 1)])] /\
            redo_all E1 [] float_to_int [("Renamed", Renamed)] (loading fresh) (p_log c) = Err TypeError
  | Err _ => False end.
Proof. vm_compute. repeat split. Qed.
Example C93_mine :
  match do_steps E1 [] fresh [New Mine [VInt 1] []] with
  | Ok c => match redo_all E1 [] float_to_int [("core.Base", Base_); ("Mine", Mine)] (loading fresh) (p_log c) with
            | Ok s => p_objs s = [(Base_, [("value", VInt 1)])]
            | Err _ => False end
  | Err _ => False end.
Proof. vm_compute. reflexivity. Qed.
