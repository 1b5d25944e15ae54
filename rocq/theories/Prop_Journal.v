(** C92: what saving and loading keeps of transforms. *)
From Verif Require Import Base Registry Convert Command CommandSpec Execute Protocol Session Journal JournalSpec JournalFacts JournalLossFacts JournalPlainFacts.
Open Scope string_scope.

Theorem C92_rebuilt_partial : forall fuel g l c s,
  all_survive fuel fresh l -> do_steps fuel fresh l = Ok c -> able s ->
  exists s', redo_all g (loading s) (log c) = Ok s' /\
    forall i n, nth_error (nodes c) i = Some n -> rebuilt c s' i /\
      exists z j, id_of (reg c) i = Some z /\ lookup (reg s') z = Some j /\
        forall X (I : interp X) h, eval I h (nodes s') (obj s' j) = eval I h (nodes c) (obj c i).
Proof. exact programs_rebuilt. Qed.
Print Assumptions C92_rebuilt_partial.

Theorem C92_operands_refuted : forall fuel l o x y c c' i,
  (forall a, In a l -> proper a) -> do_steps fuel fresh l = Ok c -> passable x -> passable y ->
  make fuel c (Op o) [x; y] [] = Ok (c', i) ->
  exists h cmd z, log c' = (h ++ [cmd])%list /\ id_of (reg c') i = Some z /\
    forall g s s', ready s -> redo g s (reload cmd) = Ok s' ->
      exists j n, lookup (reg s') z = Some j /\ nth_error (nodes s') j = Some n /\ t_class n = Op o /\
        t_left n = (if is_object x then VNone else x) /\ t_right n = (if is_object y then VNone else y) /\
        (is_object x = true \/ is_object y = true -> forall X (I : interp X) k w, eval I k (nodes s') (obj s' j) <> Ok w).
Proof. exact operands_lost. Qed.
Print Assumptions C92_operands_refuted.

Theorem C92_nested_refuted : forall fuel g l1 l2 o x y c1 c s,
  (forall a, In a (l1 ++ Make (Op o) [x; y] [] :: l2) -> proper a) ->
  do_steps fuel fresh l1 = Ok c1 -> nested c1 x \/ nested c1 y ->
  do_steps fuel fresh (l1 ++ Make (Op o) [x; y] [] :: l2) = Ok c ->
  redo_all g (loading fresh) (log c) <> Ok s.
Proof. exact nested_never. Qed.
Print Assumptions C92_nested_refuted.

Theorem C92_links_refuted : forall fuel g l c s i m v c',
  all_survive fuel fresh l -> do_steps fuel fresh l = Ok c -> able s ->
  held c v -> is_object v = true -> m = "set_next" \/ m = "set_buffer" -> method c i m v = Ok c' ->
  exists s' z j n n', redo_all g (loading s) (log c') = Ok s' /\ id_of (reg c') i = Some z /\ lookup (reg s') z = Some j /\
    nth_error (nodes c') i = Some n /\ nth_error (nodes s') j = Some n' /\ link m n = v /\ link m n' = VNone.
Proof. exact link_lost. Qed.
Print Assumptions C92_links_refuted.

(** The classes are those of the library that are transforms (but for the two bases),
    and buffers; with the parameters they have there. *)
Theorem C92_classes :
  (forall k, In k classes -> exists c, In c protocol /\ k_path c = path k /\ k_sig c = sig_of k) /\
  (forall c, In c protocol -> String.prefix "transform." (k_path c) = true -> k_path c <> "transform.Transform" -> k_path c <> "transform.Operator" ->
   exists k, In k classes /\ path k = k_path c /\ sig_of k = k_sig c).
Proof. exact (conj classes_known classes_all). Qed.
Print Assumptions C92_classes.
(** A new object (but an operator) holds what it was made with. *)
Theorem C92_attributes k fuel s b r : (forall o, k <> Op o) -> body fuel s k b = Ok r ->
  exists n, nth_error (nodes (fst r)) (snd r) = Some n /\ t_class n = k /\
    (forall x, In x ["count"; "dtype"; "data"; "key"; "colormap"; "vmin"; "vmax"; "name"] -> In x (p_names (sig_of k)) -> dget (t_attrs n) x = Some (arg b x)) /\
    (In "buffer" (p_names (sig_of k)) -> t_buf n = arg b "buffer").
Proof. exact (own_attributes k fuel s b r). Qed.
Print Assumptions C92_attributes.
Theorem C92_letters c : In (Letter c) classes -> forall fuel s b r, body fuel s (Letter c) b = Ok r ->
  exists n, nth_error (nodes (fst r)) (snd r) = Some n /\ dget (t_attrs n) "key" = Some (VStr (small_letter c)).
Proof. exact (keys_letters c). Qed.
Print Assumptions C92_letters.
(** A method an object does not have is refused; so is another argument for a transform
    that has one. *)
Theorem C92_methods s i m v n : get s i = Ok n -> t_class n <> Buf ->
  (In m (methods_of (t_class n)) -> exists s', method s i m v = Ok s') /\ (~ In m (methods_of (t_class n)) -> method s i m v = Err AttributeError).
Proof. exact (methods_there s i m v n). Qed.
Print Assumptions C92_methods.
(** A method called while commands are recorded adds one command: the class and the method,
    the id of the transform, and the argument under the name the method has after set_,
    an object by its id. *)
Theorem C92_recorded s i m v n s' : get s i = Ok n -> method s i m v = Ok s' -> on s = true ->
  exists x p, m = "set_" ++ x /\ log s' = (log s ++ [mkC (Z.of_nat (length (log s))) (class_name (t_class n)) m p])%list /\
    dget p "id" = Some (VOid (oid_in (reg s) i)) /\
    (forall c j, v = VObj c j -> dget p (x ++ "(id)") = Some (VOid (oid_in (reg s) j)) /\ (dget p x = None \/ dget p x = Some VNone)) /\
    ((forall c j, v <> VObj c j) -> dget p x = Some v /\ dkeys p = ["id"; x]).
Proof. exact (method_recorded s i m v n s'). Qed.
Print Assumptions C92_recorded.
Example C92_recorded_case : exists s s' n, do_steps 9 fresh [Make Cmap [VStr "magma"] []] = Ok s /\ get s 0 = Ok n /\ on s = true /\ method s 0 "set_colormap" (VStr "gray") = Ok s'.
Proof. eexists. eexists. eexists. split; [reflexivity|]. repeat split. Qed.
(** Setting the colour map of a transform changes no transform. *)
Theorem C92_set_colormap s i v s' : method s i "set_colormap" v = Ok s' -> nodes s' = nodes s.
Proof. exact (colormap_kept s i v s'). Qed.
Print Assumptions C92_set_colormap.
Theorem C92_rebind_refused fuel s i v n r : get s i = Ok n -> (forall o, t_class n <> Op o) -> t_class n <> Out ->
  a_transform (t_next n) = None -> t_buf n <> VNone -> copy fuel s i = Ok r -> bind_to fuel s i v = Err ValueError.
Proof. exact (rebind_refused fuel s i v n r). Qed.
Print Assumptions C92_rebind_refused.
(** Loading any file leaves the objects there were as they were, and none of them in
    the registry. *)
Theorem C92_apart g s l s' : length (nodes s) = length (heap (reg s)) -> redo_all g (loading s) l = Ok s' ->
  (forall z j, lookup (reg s') z = Some j -> (length (nodes s) <= j)%nat) /\
  (forall i n, nth_error (nodes s) i = Some n -> nth_error (nodes s') i = Some n).
Proof. exact (loading_apart g s l s'). Qed.
Print Assumptions C92_apart.
Example C92_apart_case : match do_steps 9 fresh sum_program with
  | Ok c => lookup (reg c) 1 = Some 0%nat /\ (let* s := redo_all 9 (loading c) (log c) in Ok (lookup (reg s) 1)) = Ok (Some (length (nodes c)))
  | Err _ => False
  end.
Proof. vm_compute. repeat (split; [reflexivity|]). reflexivity. Qed.
Example C92_rebind_case : exists s, do_steps 9 fresh [Make (Letter "X") [VInt 4] []] = Ok s /\ is_ok (copy 9 s 0) = true /\
  bind_to 9 s 0 (VInt 5) = Err ValueError /\ method s 0 "set_left" VNone = Err AttributeError.
Proof. eexists. split; [reflexivity|]. repeat split. Qed.

(** The sum filled in afterwards, its copy and the length come back, in a new
    process and in one that has made objects. *)
Example C92_sum_survives : all_survive 9 fresh sum_program /\ able fresh /\ able ahead.
Proof.
  split; [|split; (split; [reflexivity|split; [discriminate|reflexivity]])].
  unfold sum_program.
  assert (MK : forall c k, In k classes -> survives c (Make k [] [])).
  { intros c k H. split; [exact H|]. split; [constructor|]. split; [intros v []|intros n v []]. }
  cbn [all_survive]. repeat match goal with
    | |- survives _ (Make _ [] []) /\ _ => split; [apply MK; cbn; tauto|]
    | |- survives _ (Set_ _ _ _) /\ _ => split; [split; [eexists; split; reflexivity|tauto]|]
    | |- context [do_step ?f ?c ?a] => let r := eval vm_compute in (do_step f c a) in change (do_step f c a) with r; cbv iota beta
    end.
  split.
  - eapply W_op; try reflexivity; intros t H; injection H as <-; eapply W_leaf; try reflexivity; exact Logic.I.
  - repeat match goal with
    | |- survives _ (Make _ [] []) /\ _ => split; [apply MK; cbn; tauto|]
    | |- context [do_step ?f ?c ?a] => let r := eval vm_compute in (do_step f c a) in change (do_step f c a) with r; cbv iota beta
    end.
    split; [split; [eapply W_leaf; try reflexivity; exact Logic.I|reflexivity]|].
    exact Logic.I.
Qed.
Example C92_case :
  match do_steps 9 fresh sum_program with
  | Ok c => length (log c) = 22%nat /\ eval sums 9 (nodes c) (obj c 2) = Ok 7%Z /\ eval sums 9 (nodes c) (obj c 3) = Ok 7%Z /\ eval sums 9 (nodes c) (obj c 7) = Ok 10%Z /\
      map (value_of (redo_all 9 (loading ahead) (log c))) [3; 4; 8]%Z = [Ok 7; Ok 7; Ok 10]%Z /\
      map (value_of (redo_all 9 (loading fresh) (log c))) [3; 4; 8]%Z = [Ok 7; Ok 7; Ok 10]%Z
  | Err _ => False
  end.
Proof. vm_compute. repeat (split; [reflexivity|]). reflexivity. Qed.
(** X() + Y() is 7; loaded, it is an addition without operands. *)
Example C92_plus_case :
  match do_steps 9 fresh plus_program with
  | Ok c => eval sums 9 (nodes c) (obj c 2) = Ok 7%Z /\ value_of (redo_all 9 (loading ahead) (log c)) 3 = Err TypeError /\
      value_of (redo_all 9 (loading fresh) (log c)) 3 = Err TypeError
  | Err _ => False
  end.
Proof. vm_compute. repeat (split; [reflexivity|]). reflexivity. Qed.
(** (X() + Y()) + Z() cannot be loaded in a new process. *)
Example C92_nested_case :
  (forall a, In a nested_program -> proper a) /\
  match do_steps 9 fresh (firstn 4 nested_program), do_steps 9 fresh nested_program with
  | Ok c1, Ok c => nested c1 (VObj "Add" 2%nat) /\ redo_all 9 (loading fresh) (log c) = Err KeyError /\ is_ok (redo_all 9 (loading ahead) (log c)) = true
  | _, _ => False
  end.
Proof.
  split.
  - assert (C : forall k args, In k classes -> (forall v, In v args -> passable v) -> proper (Make k args [])).
    { intros k args H H'. split; [exact H|]. split; [constructor|]. split; [exact H'|intros n v []]. }
    intros a H. cbn in H. repeat (destruct H as [<-|H]; [apply C; [cbn; tauto|cbn; intros v E; repeat (destruct E as [<-|E]; [now right|]); contradiction]|]). contradiction.
  - match goal with |- context [do_steps 9 fresh (firstn 4 nested_program)] => let r := eval vm_compute in (do_steps 9 fresh (firstn 4 nested_program)) in change (do_steps 9 fresh (firstn 4 nested_program)) with r end.
    match goal with |- context [do_steps 9 fresh nested_program] => let r := eval vm_compute in (do_steps 9 fresh nested_program) in change (do_steps 9 fresh nested_program) with r end.
    cbv iota beta. split; [|split; vm_compute; reflexivity].
    eexists 2%nat, _. split; [reflexivity|]. split; [reflexivity|]. right. split; [eexists; reflexivity|]. left. discriminate.
Qed.
(** X bound to a buffer comes back unbound; the copy of a colour map comes back
    without colours. *)
Example C92_links_case :
  match do_steps 9 fresh bound_program, do_steps 9 fresh colours_program with
  | Ok b, Ok c =>
      nth_error (map t_buf (nodes b)) 1 = Some (VObj "Buffer" 0%nat) /\
      (let* s := redo_all 9 (loading fresh) (log b) in Ok (nth_error (map t_buf (nodes s)) 1)) = Ok (Some VNone) /\
      eval sums 9 (nodes c) (obj c 1) = Ok 1%Z /\ value_of (redo_all 9 (loading fresh) (log c)) 2 = Err TypeError
  | _, _ => False
  end.
Proof. vm_compute. repeat (split; [reflexivity|]). reflexivity. Qed.
Example C92_set_colormap_case :
  match do_steps 9 fresh [Make Cmap [VStr "magma"] []; Set_ 0 "set_colormap" (VStr "gray")] with
  | Ok s => length (log s) = 2%nat /\ map t_attrs (nodes s) = [[("colormap", VStr "magma"); ("vmin", VNone); ("vmax", VNone)]]
  | Err _ => False
  end /\ do_steps 9 fresh [Make (Letter "X") [] []; Set_ 0 "set_colormap" (VStr "gray")] = Err AttributeError.
Proof. vm_compute. repeat split; reflexivity. Qed.
