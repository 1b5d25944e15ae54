(** Proofs about data-type descriptions. *)
From Coq Require Import DecimalString DecimalNat DecimalFacts Decimal.
From Verif Require Import Base Dtype DtypeSpec.
Local Open Scope string_scope.

Definition has (c : ascii) (s : string) : Prop := In c (list_ascii_of_string s).

Lemma split_none c s : ~ has c s -> split c s = [s].
Proof.
  induction s as [|a s IH]; intros H; [reflexivity|]. cbn. unfold has in *. cbn in H.
  destruct (Ascii.eqb_spec a c) as [->|_]; [tauto|]. rewrite IH; tauto.
Qed.
Lemma split_app c s r : ~ has c s -> split c (s ++ String c r) = s :: split c r.
Proof.
  induction s as [|a s IH]; intros H; cbn.
  - now rewrite Ascii.eqb_refl.
  - unfold has in *. cbn in H. destruct (Ascii.eqb_spec a c) as [->|_]; [tauto|]. rewrite IH; tauto.
Qed.
Lemma split_join c l : l <> [] -> (forall x, In x l -> ~ has c x) -> split c (join c l) = l.
Proof.
  induction l as [|x l IH]; [congruence|]. intros _ H. destruct l as [|y l].
  - cbn. apply split_none. apply H. now left.
  - change (join c (x :: y :: l)) with (x ++ String c (join c (y :: l))).
    rewrite split_app by (apply H; now left). f_equal. apply IH; [discriminate|]. intros z Hz. apply H. now right.
Qed.

Lemma has_app c s r : has c (s ++ r) <-> has c s \/ has c r.
Proof. unfold has. induction s as [|a s IH]; cbn; [tauto|]. rewrite IH. tauto. Qed.
Lemma has_cons c a s : has c (String a s) <-> a = c \/ has c s.
Proof. reflexivity. Qed.

Lemma digits_clean n c : has c (digits n) -> c <> colon /\ c <> comma.
Proof.
  unfold digits, has. induction (Nat.to_uint n); cbn; try tauto;
    (intros [<-|H]; [split; discriminate|now apply IHu]).
Qed.
Lemma to_uint_nonnil n : Nat.to_uint n <> Decimal.Nil.
Proof.
  intros C. pose proof (DecimalNat.Unsigned.of_to n) as H. rewrite C in H. cbn in H. subst n. discriminate.
Qed.
Lemma parse_digits n : parse_int (digits n) = Ok n.
Proof.
  unfold parse_int, digits.
  assert (E : NilEmpty.uint_of_string (NilEmpty.string_of_uint (Nat.to_uint n)) = Some (Nat.to_uint n))
    by apply NilEmpty.usu.
  pose proof (to_uint_nonnil n) as Hne.
  destruct (NilEmpty.string_of_uint (Nat.to_uint n)) as [|a s] eqn:S.
  - destruct (Nat.to_uint n); cbn in S; congruence.
  - rewrite E. now rewrite DecimalNat.Unsigned.of_to.
Qed.
Lemma digits_nonempty n : String.eqb (digits n) "" = false.
Proof.
  unfold digits. pose proof (to_uint_nonnil n) as H.
  destruct (Nat.to_uint n); cbn; [now destruct H|..]; reflexivity.
Qed.

Lemma parse_element_ok t name shape : clean t -> clean name ->
  parse_element (element name (EType t, shape)) =
  Ok (name, t, if (1 <? count shape)%nat then Some (count shape) else None).
Proof.
  intros [_ Ht] [_ Hn]. unfold parse_element, element. cbn [base_str fst snd].
  rewrite split_app by exact Ht. rewrite split_app by exact Hn.
  rewrite split_none by (intros C; now apply digits_clean in C).
  rewrite digits_nonempty, parse_digits. cbn [bind]. reflexivity.
Qed.
Lemma element_no_comma t name shape : clean t -> clean name -> ~ has comma (element name (EType t, shape)).
Proof.
  intros [Ht _] [Hn _]. unfold element. cbn [base_str fst snd]. rewrite has_app, has_cons, has_app, has_cons.
  intros [C|[C|[C|[C|C]]]]; try (now apply Ht); try (now apply Hn); try discriminate.
  now apply digits_clean in C.
Qed.

(** Unnamed dtypes. *)
Lemma unnamed_text t shape : dtype_to_str (EType t, shape) = element "" (EType t, shape).
Proof. destruct shape; reflexivity. Qed.
Lemma clean_empty : clean "".
Proof. split; intros []. Qed.
Lemma unnamed_flat sz t shape : clean t -> sz t <> None ->
  str_to_dtype sz (dtype_to_str (EType t, shape)) = Ok (EType t, flat_shape shape).
Proof.
  intros Ht Hs. rewrite unnamed_text. unfold str_to_dtype.
  rewrite split_none by (apply element_no_comma; auto using clean_empty).
  cbn [parse_elements]. rewrite parse_element_ok by auto using clean_empty. cbn [bind].
  unfold np_dtype. destruct (sz t); [|congruence]. unfold flat_shape. now destruct (1 <? count shape)%nat.
Qed.

(** Structures. *)
Definition entry (f : string * dtype * nat) : string * string * option nat :=
  (field_name f, base_str (field_elem f),
   if (1 <? count (field_shape f))%nat then Some (count (field_shape f)) else None).

Lemma parse_fields sz fields : Forall (simple_field sz) fields ->
  parse_elements (map (fun f => element (fst (fst f)) (snd (fst f))) fields) = Ok (map entry fields).
Proof.
  induction 1 as [|[[name [e shape]] o] r [_ [Hc [t [Et [Ht _]]]]] _ IH]; [reflexivity|].
  cbn [field_elem fst snd] in Et. subst e. cbn [map parse_elements fst snd].
  rewrite parse_element_ok by auto. cbn [bind]. rewrite IH. reflexivity.
Qed.

Lemma np_fields_ok sz fields : Forall (simple_field sz) fields -> forall off seen,
  NoDup (map field_name fields) -> (forall f, In f fields -> ~ In (field_name f) seen) ->
  exists total' fields',
    np_fields sz off seen (map entry fields) = Ok (total', fields') /\ packed sz off fields' total' /\
    map fst fields' = map (fun f => (field_name f, (field_elem f, flat_shape (field_shape f)))) fields.
Proof.
  induction 1 as [|f r [Hne [Hc [t [Et [Ht Hs]]]]] _ IH]; intros off seen Hn Hseen.
  - exists off, []. cbn. auto.
  - inversion Hn as [|? ? Hf Hn']; subst. destruct (sz t) as [k|] eqn:Ek; [|congruence].
    set (c := if (1 <? count (field_shape f))%nat then Some (count (field_shape f)) else None).
    assert (Ef : entry f = (field_name f, t, c)) by (unfold entry; now rewrite Et).
    destruct (IH (off + k * count (shape_of c))%nat (field_name f :: seen) Hn') as [tot [fs [E [P M]]]].
    { intros g Hg [C|C]; [apply Hf; rewrite C; now apply in_map|]. apply (Hseen g); [now right|exact C]. }
    exists tot, ((field_name f, (EType t, shape_of c), off) :: fs).
    cbn [map np_fields]. rewrite Ef.
    destruct (String.eqb_spec (field_name f) ""); [congruence|].
    assert (Hex : existsb (String.eqb (field_name f)) seen = false).
    { apply Bool.not_true_iff_false. intros C. apply existsb_exists in C. destruct C as [x [Hx C]].
      apply String.eqb_eq in C. subst x. apply (Hseen f); [now left|exact Hx]. }
    rewrite Hex, Ek, E. cbn [bind fst snd]. split; [reflexivity|]. split.
    + cbn [packed]. split; [reflexivity|]. exists k. split; [exact Ek|exact P].
    + cbn [map fst]. rewrite M, Et. f_equal. unfold flat_shape, c.
      now destruct (1 <? count (field_shape f))%nat.
Qed.

Lemma struct_text total f fields :
  dtype_to_str (EStruct total (f :: fields), []) =
  join comma (map (fun f => element (fst (fst f)) (snd (fst f))) (f :: fields)).
Proof. reflexivity. Qed.

Lemma struct_flat sz total fields : fields <> [] -> NoDup (map field_name fields) ->
  Forall (simple_field sz) fields ->
  exists total' fields',
    str_to_dtype sz (dtype_to_str (EStruct total fields, [])) = Ok (EStruct total' fields', []) /\
    packed sz 0 fields' total' /\
    map fst fields' = map (fun f => (field_name f, (field_elem f, flat_shape (field_shape f)))) fields.
Proof.
  intros Hne Hn Hf. destruct (np_fields_ok sz fields Hf 0 [] Hn) as [tot [fs [E [P M]]]]; [auto|].
  exists tot, fs. split; [|auto]. destruct fields as [|f fields]; [congruence|]. rewrite struct_text.
  unfold str_to_dtype. rewrite split_join.
  - pose proof (parse_fields sz _ Hf) as PF. unfold dtype in *. rewrite PF. cbn [bind].
    assert (Hname : field_name f <> "") by (inversion Hf as [|? ? [H _] _]; exact H).
    change (map entry (f :: fields)) with (entry f :: map entry fields) in *.
    destruct (entry f) as [[nm ty] c] eqn:Ee. assert (nm = field_name f) by (unfold entry in Ee; congruence).
    subst nm. destruct (field_name f) as [|a s]; [congruence|]. cbv beta iota. rewrite E. reflexivity.
  - discriminate.
  - intros x Hx. apply in_map_iff in Hx. destruct Hx as [g [<- Hg]].
    eapply Forall_forall in Hf; [|exact Hg]. destruct g as [[name [e shape]] o].
    destruct Hf as [_ [Hc [t [Et [Ht _]]]]]. cbn [field_elem fst snd] in *. subst e. now apply element_no_comma.
Qed.

Lemma packed_unique sz fs : forall off fs' tot tot', packed sz off fs tot -> packed sz off fs' tot' ->
  map fst fs = map fst fs' -> fs = fs' /\ tot = tot'.
Proof.
  induction fs as [|[[n [e s]] o] fs IH]; intros off [|[[n' [e' s']] o'] fs'] tot tot' H H' M; try discriminate.
  - cbn in *. now subst.
  - cbn [map fst] in M. injection M as <- <- <- M. cbn [packed] in H, H'.
    destruct H as [-> H], H' as [-> H']. destruct e as [t|]; [|destruct H].
    destruct H as [k [Ek H]], H' as [k' [Ek' H']]. rewrite Ek in Ek'. injection Ek' as <-.
    destruct (IH _ _ _ _ H H' M) as [-> ->]. auto.
Qed.
Lemma flat_plain s : plain_shape s <-> flat_shape s = s.
Proof.
  unfold flat_shape, plain_shape. split.
  - intros [->|[n [Hn ->]]]; [reflexivity|]. cbn [count fold_right]. rewrite Nat.mul_1_r.
    destruct (Nat.ltb_spec 1 n); [reflexivity|lia].
  - destruct (Nat.ltb_spec 1 (count s)) as [H|H]; intros E; [|left; now symmetry].
    right. exists (count s). split; [lia|now symmetry].
Qed.

Lemma roundtrip sz d : describable sz d -> str_to_dtype sz (dtype_to_str d) = Ok d.
Proof.
  destruct d as [[t|total fields] shape].
  - intros [Ht [Hs Hp]]. rewrite unnamed_flat by auto. now rewrite (proj1 (flat_plain shape) Hp).
  - intros [-> [Hne [Hn [Hf Hp]]]].
    destruct (struct_flat sz total fields Hne Hn) as [tot [fs [E [P M]]]].
    { eapply Forall_impl; [|exact Hf]. now intros a [H _]. }
    rewrite E.
    assert (M' : map fst fs = map fst fields).
    { rewrite M. clear -Hf. induction Hf as [|[[n [e s]] o] r [_ Hs] _ IH]; [reflexivity|]. cbn [map].
      rewrite IH. f_equal. unfold field_shape in *. cbn [fst snd] in *. cbn.
      rewrite (proj1 (flat_plain s) Hs). reflexivity. }
    destruct (packed_unique _ _ _ _ _ _ P Hp M') as [-> ->]. reflexivity.
Qed.

Lemma text_injective sz d d' : describable sz d -> describable sz d' -> dtype_to_str d = dtype_to_str d' -> d = d'.
Proof.
  intros H H' E. apply roundtrip in H, H'. rewrite E in H. congruence.
Qed.
Lemma unnamed_iff sz t shape : clean t -> sz t <> None ->
  (str_to_dtype sz (dtype_to_str (EType t, shape)) = Ok (EType t, shape) <-> plain_shape shape).
Proof.
  intros Ht Hs. rewrite unnamed_flat by auto. rewrite flat_plain. split; congruence.
Qed.

(** Counterexamples, with numpy's 4-byte floats. *)
Definition f4 : sizes := fun t => if String.eqb t "<f4" then Some 4%nat else if String.eqb t "|V8" then Some 8%nat else None.
Lemma matrix_witness : str_to_dtype f4 (dtype_to_str (EType "<f4", [4; 4]%nat)) = Ok (EType "<f4", [16%nat]).
Proof. vm_compute. reflexivity. Qed.
Lemma separator_witness :
  str_to_dtype f4 (dtype_to_str (EStruct 4 [("a:b", (EType "<f4", []), 0%nat)], [])) = Err ValueError /\
  str_to_dtype f4 (dtype_to_str (EStruct 4 [("a:1,<f4:b", (EType "<f4", []), 0%nat)], [])) =
    Ok (EStruct 8 [("a", (EType "<f4", []), 0%nat); ("b", (EType "<f4", []), 4%nat)], []).
Proof. vm_compute. auto. Qed.
Lemma nested_witness :
  let inner := EStruct 8 [("x", (EType "<f4", []), 0%nat); ("y", (EType "<f4", []), 4%nat)] in
  str_to_dtype f4 (dtype_to_str (EStruct 8 [("p", (inner, []), 0%nat)], [])) =
    Ok (EStruct 8 [("p", (EType "|V8", []), 0%nat)], []).
Proof. vm_compute. reflexivity. Qed.
Lemma padding_witness :
  str_to_dtype f4 (dtype_to_str (EStruct 16 [("a", (EType "<f4", []), 0%nat); ("b", (EType "<f4", []), 8%nat)], [])) =
    Ok (EStruct 8 [("a", (EType "<f4", []), 0%nat); ("b", (EType "<f4", []), 4%nat)], []).
Proof. vm_compute. reflexivity. Qed.

Lemma letter_not_uint s c : has c s -> letter c -> NilEmpty.uint_of_string s = None.
Proof.
  intros H L. induction s as [|x s IH]; [destruct H|]. apply has_cons in H. cbn [NilEmpty.uint_of_string].
  destruct H as [->|H]; [|rewrite (IH H); unfold uint_of_char; destruct x as [[] [] [] [] [] [] [] []]; reflexivity].
  assert (N : forall o, uint_of_char c o = None); [|apply N].
  intros o. unfold letter in L. destruct c as [[] [] [] [] [] [] [] []]; cbn in L; try lia; destruct o; reflexivity.
Qed.
Lemma count_refused sz t name size c : clean t -> clean name -> clean size -> In c (list_ascii_of_string size) -> letter c ->
  str_to_dtype sz (t ++ ":" ++ name ++ ":" ++ size) = Err ValueError.
Proof.
  intros [Tc Tl] [Nc Nl] [Sc Sl] H L. unfold str_to_dtype. change (":" ++ size) with (String colon size).
  change (":" ++ name ++ String colon size) with (String colon (name ++ String colon size)).
  rewrite split_none by (intros K; repeat first [apply has_app in K; destruct K as [K|K] | apply has_cons in K; destruct K as [K|K]]; try discriminate; tauto).
  cbn [parse_elements]. unfold parse_element.
  rewrite split_app by exact Tl. rewrite split_app by exact Nl. rewrite split_none by exact Sl.
  unfold parse_int. rewrite (letter_not_uint size c H L). destruct size; [destruct H|reflexivity].
Qed.
