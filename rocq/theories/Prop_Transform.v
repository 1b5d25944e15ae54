(** C31-C34: copying, combining, chaining and binding transforms. *)
From Verif Require Import Base Transform TransformSpec TransformFacts.

(** C31: the copy stands for the same tree, consists of new transforms only,
    evaluates to the same value, and stays so whatever is done to the existing
    transforms; the original stays so whatever is done to the new ones.  For
    transforms in which the right operand of every operator is a transform. *)
Theorem C31_copy_partial {V} (P : nat -> Prop) fuel (h : heap V) t i :
  stands P h t i -> copyable t -> bases_older h -> depth t <= fuel ->
  exists h' j, copy fuel h i = Ok (h', j) /\ keeps h h' /\ bases_older h' /\
    stands (fun k => length h <= k < length h') h' t j /\
    (forall I g, depth t <= g -> evaluate I g h' j = evaluate I g h i) /\
    (forall h'', (forall k, length h <= k -> nth_error h'' k = nth_error h' k) ->
       forall I g, depth t <= g -> evaluate I g h'' j = evaluate I g h i) /\
    (forall h'', (forall k, k < length h -> nth_error h'' k = nth_error h' k) ->
       forall I g, depth t <= g -> evaluate I g h'' i = evaluate I g h i).
Proof. exact (copy_property P fuel h t i). Qed.
Print Assumptions C31_copy_partial.
Example C31_copy_case :
  stands anywhere zh zX 0 /\ copyable zX /\ bases_older zh /\ depth zX <= 1.
Proof. split; [exact zh_x|]. split; [repeat split|]. split; [exact zh_bases|]. cbn. lia. Qed.

(** Copying changes no existing transform, whatever it copies. *)
Theorem C31_copy_keeps {V} fuel (h : heap V) i h' j :
  copy fuel h i = Ok (h', j) -> keeps h h' /\ j = length h.
Proof. exact (copy_keeps fuel h i h' j). Qed.
Print Assumptions C31_copy_keeps.

(** An operator with a constant on the right: the copy keeps the original's left
    operand, has no right operand, and never evaluates. *)
Theorem C31_copy_constant_right {V} fuel (h : heap V) i nd o h' j :
  nth_error h i = Some nd -> n_kind nd = KOp o -> is_transform (n_right nd) = false -> copy fuel h i = Ok (h', j) ->
  (exists nd', nth_error h' j = Some nd' /\ n_left nd' = n_left nd /\ n_right nd' = ON) /\
  forall I g v, evaluate I g h' j <> Ok v.
Proof. exact (copy_constant_right fuel h i nd o h' j). Qed.
Print Assumptions C31_copy_constant_right.

(** (x * 2).copy() does not evaluate, although x * 2 does, and shares x with it. *)
Theorem C31_copy_refuted :
  exists h i h' j h'', op_tc 5 zh Times 0 2%Z = Ok (h, i) /\ evaluate zI 5 h i = Ok 102%Z /\
    copy 5 h i = Ok (h', j) /\ evaluate zI 5 h' j = Err TypeError /\
    exists nd nd' k, nth_error h' i = Some nd /\ nth_error h' j = Some nd' /\ n_left nd = OT k /\ n_left nd' = OT k /\
    set_buffer h' k (Some 9%Z) = Ok h''.
Proof. exact copy_constant_witness. Qed.
Print Assumptions C31_copy_refuted.

(** C32: combining transforms, and calling one, changes no existing transform. *)
Theorem C32_operands_kept {V} (I : interp V) number fuel (h : heap V) o i j v h' k :
  (op_tt fuel h o i j = Ok (h', k) \/ op_tc fuel h o i v = Ok (h', k) \/ op_ct fuel h o v i = Ok (h', k) \/
   neg fuel h v i = Ok (h', k) \/ call fuel h i j = Ok (h', k) \/
   bind_to I fuel h i v = (h', Ok k) \/ measure_mul I number fuel h i v = (h', Ok k)) ->
  keeps h h' /\ length h <= k.
Proof.
  exact (fun H => match H with
  | or_introl H => op_keeps fuel h o i j h' k H
  | or_intror (or_introl H) => op_tc_keeps fuel h o i v h' k H
  | or_intror (or_intror (or_introl H)) => op_ct_keeps fuel h o v i h' k H
  | or_intror (or_intror (or_intror (or_introl H))) => op_tc_keeps fuel h Times i v h' k H
  | or_intror (or_intror (or_intror (or_intror (or_introl H)))) => call_keeps fuel h i j h' k H
  | or_intror (or_intror (or_intror (or_intror (or_intror (or_introl H))))) =>
      match bind_keeps I fuel h i v h' (Ok k) H with conj a b => conj a (b k eq_refl) end
  | or_intror (or_intror (or_intror (or_intror (or_intror (or_intror H))))) =>
      match measure_mul_keeps I number fuel h i v h' (Ok k) H with conj a b => conj a (b k eq_refl) end
  end).
Qed.
Print Assumptions C32_operands_kept.
Example C32_operands_kept_case : exists h' k, op_tt 5 zh Plus 0 0 = Ok (h', k).
Proof. eexists _, _. vm_compute. reflexivity. Qed.

(** t1 op t2, t op c and c op t evaluate to the operation on the values, for
    operands that can be copied. *)
Theorem C32_transform_transform_partial {V} P fuel (h : heap V) o i1 i2 t1 t2 : bases_older h ->
  stands P h t1 i1 -> copyable t1 -> depth t1 <= fuel -> stands P h t2 i2 -> copyable t2 -> depth t2 <= fuel ->
  exists h' j, op_tt fuel h o i1 i2 = Ok (h', j) /\ keeps h h' /\
    forall I, evaluate I (S fuel) h' j =
      let* a := evaluate I fuel h i1 in let* b := evaluate I fuel h i2 in e_arith I o a b.
Proof. exact (op_tt_value P fuel h o i1 i2 t1 t2). Qed.
Print Assumptions C32_transform_transform_partial.
Theorem C32_transform_constant_partial {V} P fuel (h : heap V) o i t c :
  bases_older h -> stands P h t i -> copyable t -> depth t <= fuel ->
  exists h' j, op_tc fuel h o i c = Ok (h', j) /\ keeps h h' /\
    forall I, evaluate I (S fuel) h' j = let* a := evaluate I fuel h i in e_arith I o a c.
Proof. exact (op_tc_value P fuel h o i t c). Qed.
Print Assumptions C32_transform_constant_partial.
(** c + t is computed as t + c. *)
Theorem C32_constant_transform_partial {V} P fuel (h : heap V) o i t c :
  o <> Divide -> bases_older h -> stands P h t i -> copyable t -> depth t <= fuel ->
  exists h' j, op_ct fuel h o c i = Ok (h', j) /\ keeps h h' /\
    forall I, (forall x y : V, e_arith I Plus x y = e_arith I Plus y x) ->
      evaluate I (S fuel) h' j = let* a := evaluate I fuel h i in e_arith I o c a.
Proof. exact (op_ct_value P fuel h o i t c). Qed.
Print Assumptions C32_constant_transform_partial.
Example C32_case : bases_older zh /\ stands anywhere zh zX 0 /\ copyable zX /\ depth zX <= 5 /\
  forall x y, e_arith zI Plus x y = e_arith zI Plus y x.
Proof.
  split; [exact zh_bases|]. split; [exact zh_x|]. split; [repeat split|]. split; [cbn; lia|].
  intros x y. cbn. now rewrite Z.add_comm.
Qed.

(** Whole expressions, of any size, over copyable transforms, with constants on
    the left of - and *. *)
Theorem C32_expressions_partial {V} (I : interp V) fuel d e (h : heap V) : supported e -> bases_older h ->
  (forall i, In i (leaves e) -> exists t, stands anywhere h t i /\ copyable t /\ depth t <= d) ->
  d + size e <= fuel ->
  exists h' j, build fuel h e = Ok (h', j) /\ keeps h h' /\ evaluate I fuel h' j = meaning I (evaluate I d h) e.
Proof. exact (build_value I fuel d e h). Qed.
Print Assumptions C32_expressions_partial.
Example C32_expressions_case :
  let e := EOp Times (ELeft Minus 100%Z (ELeaf 0)) (EOp Plus (ELeaf 0) (ELeaf 0)) in
  supported e /\ (forall i, In i (leaves e) -> exists t, stands anywhere zh t i /\ copyable t /\ depth t <= 1) /\
  meaning zI (evaluate zI 1 zh) e = Ok 4998%Z.
Proof.
  cbv zeta. split; [cbn; auto|]. split; [|reflexivity].
  intros i Hi. assert (i = 0) as -> by (cbn in Hi; intuition). exists zX. split; [exact zh_x|]. split; [repeat split|]. cbn. lia.
Qed.

(** (x * 2) + x does not evaluate, although both operands do; 2 / x raises. *)
Theorem C32_constant_operand_refuted :
  exists h i h' j, op_tc 5 zh Times 0 2%Z = Ok (h, i) /\ evaluate zI 5 h i = Ok 102%Z /\ evaluate zI 5 h 0 = Ok 51%Z /\
    op_tt 5 h Plus i 0 = Ok (h', j) /\ evaluate zI 5 h' j = Err TypeError.
Proof. exact op_constant_witness. Qed.
Print Assumptions C32_constant_operand_refuted.
Theorem C32_constant_divided_refuted : op_ct 5 zh Divide 2%Z 0 = Err TypeError.
Proof. exact op_divide_witness. Qed.
Print Assumptions C32_constant_divided_refuted.

(** C33: calling an accessor, measure, colormap or light on a transform applies
    it to the value of that transform. *)
Theorem C33_call_composes_partial {V} P fuel (h : heap V) i j k n b t2 : stage k -> bases_older h ->
  stands P h (Node k BN BN n b) i -> copyable_branch n -> depth (Node k BN BN n b) <= fuel ->
  stands P h t2 j -> copyable t2 -> depth t2 <= fuel ->
  exists h' r, call fuel h i j = Ok (h', r) /\ keeps h h' /\
    stands (fun q => length h <= q < length h') h' (Node k BN BN (BT t2) None) r /\
    forall I, evaluate I (S fuel) h' r =
      let* _ := e_ready I k in let* v := evaluate I fuel h j in e_app I k v.
Proof. exact (call_value P fuel h i j k n b t2). Qed.
Print Assumptions C33_call_composes_partial.
(** t1(t2(...(tn(x)))) applies all of them, innermost first, for chains of any
    length. *)
Theorem C33_chain_partial {V} (I : interp V) fuel d (h : heap V) l ks x t : Forall stage ks -> bases_older h ->
  stands anywhere h t x -> copyable t -> depth t <= d -> length ks + d <= fuel ->
  Forall2 (fun i k => stands anywhere h (Node k BN BN BN None) i) l ks ->
  exists h' j, nest fuel h l x = Ok (h', j) /\ keeps h h' /\
    evaluate I fuel h' j = apply_all I ks (evaluate I d h x).
Proof. exact (nest_value_spec I fuel d h l ks x t). Qed.
Print Assumptions C33_chain_partial.
Example C33_chain_case :
  Forall stage [KMap 3; KMap 4] /\ Forall2 (fun i k => stands anywhere zh (Node k BN BN BN None) i) [1; 2] [KMap 3; KMap 4] /\
  apply_all zI [KMap 3; KMap 4] (evaluate zI 1 zh 0) = Ok 5143%Z.
Proof.
  split; [repeat constructor|]. split; [|reflexivity]. constructor; [exact zh_m1|]. constructor; [exact zh_m2|constructor].
Qed.
(** A chain made first and bound later applies all of its transforms. *)
Theorem C33_chain_bound {V} P (I : interp V) fuel (h : heap V) k ks i v : stage k -> Forall stage ks -> bases_older h ->
  stands P h (line k ks None) i -> S (length ks) <= fuel -> e_bindable I v = true ->
  exists h' j, bind_to I fuel h i v = (h', Ok j) /\ keeps h h' /\
    stands (fun q => length h <= q < length h') h' (line k ks (Some v)) j /\
    forall J, evaluate J fuel h' j = apply_all J (k :: ks) (Ok v).
Proof. exact (bind_value P I fuel h k ks i v). Qed.
Print Assumptions C33_chain_bound.
Example C33_chain_bound_case :
  exists h i, call 5 zh 1 2 = Ok (h, i) /\ stands anywhere h (line (KMap 3) [KMap 4] None) i.
Proof.
  eexists _, _. split; [vm_compute; reflexivity|]. split; [exact I|]. eexists; split; [reflexivity|].
  split; [reflexivity|]. split; [reflexivity|]. split; [exact I|]. split; [exact I|].
  split; [exact I|]. eexists; split; [reflexivity|].
  split; [reflexivity|]. split; [reflexivity|]. split; [exact I|]. split; [exact I|]. exact I.
Qed.

(** t1(t2)(t3) drops t2: the chain has to be written t1(t2(t3)). *)
Theorem C33_regrouped_refuted :
  exists h1 a h2 b h3 c h4 d h5 e h6 f,
    call 9 zh 1 2 = Ok (h1, a) /\ call 9 h1 a 3 = Ok (h2, b) /\ bind_to zI 9 h2 b 8%Z = (h3, Ok c) /\
    evaluate zI 9 h3 c = Ok 863%Z /\
    call 9 zh 2 3 = Ok (h4, d) /\ call 9 h4 1 d = Ok (h5, e) /\ bind_to zI 9 h5 e 8%Z = (h6, Ok f) /\
    evaluate zI 9 h6 f = Ok 8643%Z.
Proof. exact regroup_witness. Qed.
Print Assumptions C33_regrouped_refuted.
(** An operator called on a transform ignores it. *)
Theorem C33_operator_refuted :
  exists h1 a h2 b h3 c, op_tt 9 zh Plus 0 0 = Ok (h1, a) /\ bind_to zI 9 h1 1 8%Z = (h2, Ok b) /\
    call 9 h2 a b = Ok (h3, c) /\ evaluate zI 9 h3 c = evaluate zI 9 h1 a /\ evaluate zI 9 h1 a = Ok 102%Z.
Proof. exact operator_chain_witness. Qed.
Print Assumptions C33_operator_refuted.

(** C34: a transform or chain called on a buffer is bound to it (see also
    [C33_chain_bound]); the transform called is unchanged. *)
Theorem C34_bind_keeps {V} (I : interp V) fuel (h : heap V) i v h' r :
  bind_to I fuel h i v = (h', r) -> keeps h h' /\ (forall j, r = Ok j -> length h <= j).
Proof. exact (bind_keeps I fuel h i v h' r). Qed.
Print Assumptions C34_bind_keeps.
Theorem C34_bind_partial {V} P (I : interp V) fuel (h : heap V) k i v : stage k -> bases_older h ->
  stands P h (Node k BN BN BN None) i -> 1 <= fuel -> e_bindable I v = true ->
  exists h' j, bind_to I fuel h i v = (h', Ok j) /\ keeps h h' /\
    stands (fun q => length h <= q < length h') h' (Node k BN BN BN (Some v)) j /\
    forall J, evaluate J fuel h' j = apply_all J [k] (Ok v).
Proof. exact (fun a => bind_value P I fuel h k [] i v a (Forall_nil stage)). Qed.
Print Assumptions C34_bind_partial.
(** Binding again, or to something that is not a buffer, raises ValueError; the
    binding stays. *)
Theorem C34_rebind_partial {V} P (I : interp V) fuel (h : heap V) t i v w :
  stage (head t) -> copyable t -> bases_older h -> stands P h t i -> depth t <= fuel ->
  last_buffer t = Some w \/ e_bindable I v = false ->
  exists h', bind_to I fuel h i v = (h', Err ValueError) /\ keeps h h'.
Proof. exact (rebind_spec P I fuel h t i v w). Qed.
Print Assumptions C34_rebind_partial.
Example C34_rebind_case : stage (head zX) /\ copyable zX /\ stands anywhere zh zX 0 /\ last_buffer zX = Some 5%Z.
Proof. split; [exact I|]. split; [repeat split|]. split; [exact zh_x|reflexivity]. Qed.
(** Operators are not bound by a call: (m1 + m2)(8) still has no value and can be
    called again; (2 * m1)(8) raises AttributeError. *)
Theorem C34_operator_refuted :
  (exists h1 a h2 b h3 c, op_tt 9 zh Plus 1 2 = Ok (h1, a) /\ bind_to zI 9 h1 a 8%Z = (h2, Ok b) /\
    evaluate zI 9 h2 b = Err AttributeError /\ bind_to zI 9 h2 b 9%Z = (h3, Ok c)) /\
  (exists h1 a h2, op_ct 9 zh Times 2%Z 1 = Ok (h1, a) /\ bind_to zI 9 h1 a 8%Z = (h2, Err AttributeError)).
Proof. exact operator_bind_witness. Qed.
Print Assumptions C34_operator_refuted.
(** A bound transform may be called on a transform, which replaces the buffer. *)
Theorem C34_call_replaces_buffer :
  exists h1 a h2 b, bind_to zI 9 zh 1 8%Z = (h1, Ok a) /\ evaluate zI 9 h1 a = Ok 83%Z /\
    call 9 h1 a 0 = Ok (h2, b) /\ evaluate zI 9 h2 b = Ok 513%Z.
Proof. exact call_drops_buffer_witness. Qed.
Print Assumptions C34_call_replaces_buffer.

(** C34.  An output takes no argument: the call is refused and nothing is made. *)
Theorem C34_out_refused {V} (I : interp V) fuel (h : heap V) i v n x : get h i = Ok n -> n_kind n = KOut x -> bind_to I fuel h i v = (h, Err TypeError).
Proof. exact (out_refused I fuel h i v n x). Qed.
Print Assumptions C34_out_refused.
Example C34_out_refused_case : exists h n, get (V := Z) h 0 = Ok n /\ n_kind n = KOut "screen[paths]"%string.
Proof. exists [mkNode (KOut "screen[paths]"%string) ON ON ON None None]. eexists. split; reflexivity. Qed.
