(** Proofs about saving and loading objects of a program's own classes. *)
From Verif Require Import Base Registry RegistryFacts Convert Command CommandSpec CommandFacts Execute Protocol ProtocolFacts Session LibraryFacts JournalFacts Derived DerivedSpec.
Open Scope string_scope.
Open Scope nat_scope.

(** ** Dictionaries *)
Lemma dict_ext (a b : dict string value) : dkeys a = dkeys b -> NoDup (dkeys a) -> (forall k, dget a k = dget b k) -> a = b.
Proof.
  revert b. induction a as [|[k v] a IH]; intros [|[k' v'] b] K N G; cbn in K; try discriminate; [reflexivity|].
  injection K as -> K. cbn in N. apply NoDup_cons_iff in N as [Ni N]. f_equal.
  - specialize (G k'). cbn in G. rewrite String.eqb_refl in G. congruence.
  - apply IH; auto. intros n. specialize (G n). cbn in G. destruct (String.eqb n k') eqn:Q; [|exact G].
    apply String.eqb_eq in Q as ->. transitivity (@None value); [|symmetry]; apply dget_none; [exact Ni|].
    unfold dkeys in *. rewrite <- K. exact Ni.
Qed.

(** ** Delivery *)
Lemma delivered_keys E d ap ann b b' : delivered E d ap ann b = Ok b' -> dkeys b' = dkeys b.
Proof.
  revert b'. induction b as [|[k v] b IH]; intros b'; cbn [delivered]; [intros X; now injection X as <-|].
  destruct (recorded_value _ _ _ _ _); cbn [bind]; [|discriminate]. destruct (applied ap _); cbn [bind]; [|discriminate].
  destruct (delivered _ _ _ _ b); cbn [bind]; [|discriminate]. intros X. injection X as <-. cbn. f_equal. now apply IH.
Qed.
Lemma delivered_get E d ap ann b b' k v : delivered E d ap ann b = Ok b' -> dget b k = Some v ->
  exists w x, recorded_value E d ann k v = Ok w /\ applied ap w = Ok x /\ dget b' k = Some x.
Proof.
  revert b'. induction b as [|[n u] b IH]; intros b'; cbn [delivered]; [discriminate|].
  destruct (recorded_value E d ann n u) as [w|] eqn:W; cbn [bind]; [|discriminate]. destruct (applied ap w) as [x|] eqn:X; cbn [bind]; [|discriminate].
  destruct (delivered E d ap ann b) as [r|]; cbn [bind]; [|discriminate]. intros Y. injection Y as <-. cbn.
  destruct (String.eqb k n) eqn:Q; [|now apply IH]. apply String.eqb_eq in Q as ->. intros Y. injection Y as <-. eauto.
Qed.
Lemma check_parameters_at E d ann p p' k v : check_parameters E d ann p = Ok p' -> dget p k = Some v ->
  exists w, recorded_value E d ann k v = Ok w /\ dget p' k = Some w.
Proof.
  unfold recorded_value. revert p'. induction p as [|[n u] p IH]; intros p'; cbn [check_parameters]; [discriminate|].
  destruct (match dget ann n with Some _ => _ | None => _ end) as [w|] eqn:W; cbn [bind]; [|discriminate].
  destruct (check_parameters E d ann p) as [r|]; cbn [bind]; [|discriminate]. intros Y. injection Y as <-. cbn.
  destruct (String.eqb k n) eqn:Q; [|now apply IH]. apply String.eqb_eq in Q as ->. intros Y. injection Y as <-. eauto.
Qed.
Lemma recorded_kept E d ann k v w : recorded_value E d ann k v = Ok w -> w = v \/ exists f, w = VConv f v.
Proof.
  unfold recorded_value. destruct (dget ann k) as [anns|]; [|intros X; injection X; auto].
  intros H. destruct (check_types_result E d v anns anns [] (false, v) w eq_refl (fun _ F => match F with end) (or_introl (conj eq_refl (fun _ _ (F : False) _ => match F with end))) H) as [[X _]|(a & b & f & _ & _ & _ & ->)]; eauto.
Qed.

(** Resolving plain entries and conversions. *)
Lemma resolve_plain objs cls ap p : forall acc,
  NoDup (dkeys p) -> NoDup (dkeys acc) -> (forall k v, In (k, v) p -> strip_id k = None /\ (forall z, v <> VOid z) /\ exists x, applied ap v = Ok x) ->
  exists kw, resolve_loop objs cls ap acc p = Ok kw /\ NoDup (dkeys kw) /\
    forall k, match dget p k with Some v => exists x, applied ap v = Ok x /\ dget kw k = Some x | None => dget kw k = dget acc k end.
Proof.
  induction p as [|[n v] p IH]; intros acc N Na H; cbn [resolve_loop]; [exists acc; repeat split; auto|].
  cbn in N. apply NoDup_cons_iff in N as [Ni N].
  destruct (H n v) as (S & O & x & X); [now left|].
  assert (R1 : resolve1 objs cls ap acc (n, v) = Ok (dset acc n x)).
  { unfold resolve1. rewrite S. destruct v; cbn in X; try (injection X as <-; reflexivity); [exfalso; eapply O; reflexivity|]. now rewrite X. }
  rewrite R1. cbn [bind]. destruct (IH (dset acc n x)) as (kw & -> & Nk & G); [exact N|now apply dset_nodup|intros k u I; apply H; now right|].
  exists kw. split; [reflexivity|]. split; [exact Nk|]. intros k. cbn [dget]. specialize (G k). change (eqb k n) with (String.eqb k n) in *.
  destruct (String.eqb k n) eqn:Q.
  - apply String.eqb_eq in Q as ->. assert (Z : dget p n = None) by now apply dget_none. rewrite Z in G. exists x. split; [exact X|].
    rewrite G. rewrite dget_dset. now rewrite eqb_refl.
  - destruct (dget p k); [exact G|]. rewrite G, dget_dset. change (eqb k n) with (String.eqb k n). now rewrite Q.
Qed.

Section Delivery.
Context (E : cenv) (d : registry) (ap : func -> value -> res value).
Lemma delivery id sg args kw b b' ps oidf cid cn mn c objs cls :
  valid_sig sg -> NoDup (dkeys kw) -> bind_args sg args kw = Ok b -> (forall k v, dget b k = Some v -> plain v = true) ->
  recorded_parameters E d id sg args kw = Ok ps -> mk_command oidf cid cn mn ps = Ok c ->
  delivered E d ap (annotations (s_params sg)) b = Ok b' ->
  dget (c_params c) "id" = Some (VOid id) /\
  exists kw', resolve objs cls ap (c_params c) = Ok kw' /\ NoDup (dkeys kw') /\ forall k, dget kw' k = dget b' k.
Proof.
  intros Hs Hkw Hb Hp Hr Hc Hd.
  destruct (record_exact id sg args kw b Hs Hkw Hb) as (N & K & I & G).
  { intros v V. destruct (In_nth_error _ _ V) as (i & Ei).
    destruct (build_list 0 sg args kw b Hs Hkw Hb) as (Hnd & _ & Hg1 & _).
    destruct (nth_error (p_names sg) i) as [n|] eqn:En.
    - apply plain_not_object. apply (Hp n). apply Hg1. apply dget_nodup_in; [exact Hnd|]. unfold explicit. apply in_or_app. left.
      clear - En Ei. revert args i Ei En. generalize (p_names sg) as l. induction l as [|x l IH]; intros [|a args] [|i]; cbn; try discriminate.
      + intros A B. injection A as ->. injection B as ->. now left.
      + intros A B. right. eauto.
    - exfalso. unfold bind_args in Hb. destruct (forallb _ _); [|discriminate]. destruct (bind_params_shape _ _ _ _ Hb) as (_ & L & _).
      apply nth_error_None in En. assert (i < length args) by (apply nth_error_Some; congruence). unfold p_names in En. rewrite map_length in En. lia. }
  { intros n v V. destruct (build_list 0 sg args kw b Hs Hkw Hb) as (Hnd & _ & Hg1 & _). apply plain_not_object, (Hp n), Hg1.
    apply dget_nodup_in; [exact Hnd|]. unfold explicit. apply in_or_app. now right. }
  set (p0 := build_parameters id sg args kw) in *.
  unfold recorded_parameters in Hr. fold p0 in Hr. unfold mk_command in Hc. destruct (dmem ps "id"); [|discriminate]. injection Hc as <-. cbn [c_params].
  assert (Kp : dkeys ps = dkeys p0) by (apply (check_parameters_get _ _ _ _ _ Hr)).
  fold (id_map oidf ps).
  assert (A0 : dget (annotations (s_params sg)) "id" = None).
  { destruct (dget (annotations (s_params sg)) "id") eqn:A; [|reflexivity]. exfalso. apply dget_some_in in A. apply annotations_keys in A.
    destruct Hs as (_ & V & _). apply in_map_iff in A as (q & Q & A). apply (V q A). exact Q. }
  split.
  { rewrite id_map_get. destruct (check_parameters_at _ _ _ _ _ "id" _ Hr I) as (w & W & ->). unfold recorded_value in W. rewrite A0 in W. injection W as <-. reflexivity. }
  pose proof (delivered_keys _ _ _ _ _ _ Hd) as Kd. pose proof (bind_args_keys _ _ _ _ Hb) as Kb.
  assert (Q : forall k, k <> "id" -> dget (ddel (id_map oidf ps) "id") k =
     match dget b k with Some v => match recorded_value E d (annotations (s_params sg)) k v with Ok w => Some w | _ => None end | None => None end).
  { intros k Nk. rewrite dget_ddel. change (eqb k "id") with (String.eqb k "id"). rewrite (proj2 (String.eqb_neq k "id") Nk). rewrite id_map_get.
    destruct (in_dec string_dec k (p_names sg)) as [Ik|Ik].
    - specialize (G k Ik). rewrite <- Kb in Ik. destruct (ProtocolFacts.dget_in b k Ik) as (v & V). rewrite V in *.
      destruct (check_parameters_at _ _ _ _ _ k v Hr G) as (w & W & ->). rewrite W. cbn. f_equal.
      destruct (recorded_kept _ _ _ _ _ _ W) as [->|(f & ->)]; [|reflexivity]. apply id_value_plain, plain_not_object. eauto.
    - assert (Z : dget b k = None) by (apply dget_none; now rewrite Kb). rewrite Z.
      assert (Z' : dget ps k = None); [|now rewrite Z']. apply dget_none. rewrite Kp. intros J. apply K in J. tauto. }
  destruct (resolve_plain objs cls ap (ddel (id_map oidf ps) "id") []) as (kw' & Hk & Nk & Gk).
  - apply ddel_nodup. rewrite id_map_keys, Kp. exact N.
  - constructor.
  - intros k v J. assert (Nd : NoDup (dkeys (ddel (id_map oidf ps) "id"))) by (apply ddel_nodup; rewrite id_map_keys, Kp; exact N).
    apply (dget_nodup_in _ _ _ Nd) in J.
    assert (k <> "id") by (intros ->; rewrite dget_ddel, eqb_refl in J; discriminate). rewrite Q in J by assumption.
    destruct (dget b k) as [u|] eqn:U; [|discriminate].
    destruct (delivered_get _ _ _ _ _ _ _ _ Hd U) as (w & x & W & X & _). rewrite W in J. injection J as <-.
    assert (V : valid_name k). { destruct Hs as (_ & V & _). assert (J : In k (p_names sg)) by (rewrite <- Kb; exact (dget_some_in _ _ _ U)). apply in_map_iff in J as (q & <- & J). now apply V. }
    split; [apply V|]. split; [|eauto]. intros z ->. destruct (recorded_kept _ _ _ _ _ _ W) as [Y|(f & Y)]; [|discriminate]. subst u. specialize (Hp _ _ U). discriminate.
  - exists kw'. split; [exact Hk|]. split; [exact Nk|]. intros k. specialize (Gk k).
    destruct (string_dec k "id") as [->|Nid].
    + rewrite dget_ddel, eqb_refl in Gk. rewrite Gk. symmetry. cbn. apply dget_none. rewrite Kd, Kb. intros J. destruct Hs as (_ & V & _). apply in_map_iff in J as (q & Y & J). apply (V q J). exact Y.
    + rewrite Q in Gk by assumption. destruct (dget b k) as [u|] eqn:U.
      * destruct (delivered_get _ _ _ _ _ _ _ _ Hd U) as (w & x & W & X & ->). rewrite W in Gk. destruct Gk as (x' & X' & ->). congruence.
      * rewrite Gk. symmetry. cbn. apply dget_none. rewrite Kd. intros J. destruct (ProtocolFacts.dget_in b k J) as (? & ?). congruence.
Qed.
End Delivery.

(** Binding a full set of keyword arguments. *)
Lemma bind_full sg kw b : NoDup (p_names sg) -> dkeys b = p_names sg -> (forall k, dget kw k = dget b k) -> bind_args sg [] kw = Ok b.
Proof.
  intros N K G.
  assert (A : forall n, In n (dkeys kw) <-> In n (p_names sg)).
  { intros n. rewrite <- K. rewrite <- !dmem_in. unfold dmem. now rewrite G. }
  unfold bind_args. replace (forallb _ _) with true.
  2:{ symmetry. apply forallb_forall. intros n I. apply existsb_exists. exists n. split; [now apply A|apply String.eqb_refl]. }
  destruct (bind_all (s_params sg) kw) as (b' & Hb' & Kb' & Gb'); [intros n I; now apply A|]. rewrite Hb'. f_equal.
  apply dict_ext.
  - rewrite Kb', K. reflexivity.
  - rewrite Kb'. exact N.
  - intros k. destruct (in_dec string_dec k (p_names sg)) as [I|I].
    + rewrite Gb'; auto.
    + transitivity (@None value); [|symmetry]; apply dget_none; [rewrite Kb'|rewrite K]; exact I.
Qed.
(** Acceptance depends on what is bound only. *)
Lemma accept_same E d id id' sg args kw args' kw' b ps : valid_sig sg -> NoDup (dkeys kw) -> NoDup (dkeys kw') ->
  bind_args sg args kw = Ok b -> bind_args sg args' kw' = Ok b -> recorded_parameters E d id sg args kw = Ok ps ->
  exists ps', recorded_parameters E d id' sg args' kw' = Ok ps'.
Proof.
  intros Hs N N' Hb Hb' Hr. apply (accept_iff E d id' sg args' kw' b Hs N' Hb'). apply (accept_iff E d id sg args kw b Hs N Hb). eauto.
Qed.
Lemma plain_bound sg args kw b : plain_sig sg -> plain_call args kw -> bind_args sg args kw = Ok b -> forall k v, dget b k = Some v -> plain v = true.
Proof.
  intros (Hs & D) (N & A & K) Hb k v G. destruct (bound_cases sg args kw b k v Hs N Hb G) as [X|[_ X]]; [|eauto].
  apply Base.dget_in in X. unfold explicit in X. apply in_app_or in X as [X|X]; [|eauto]. apply in_combine_r in X. auto.
Qed.

(** ** The invariant *)
Section Simulation.
Context (E : cenv) (d : registry) (ap : func -> value -> res value) (B : dict string class).
Record rel (s0 c c' s : proc) : Prop := mkRel {
  r_on : p_on c = true; r_on' : p_on c' = true; r_off : p_on s = false;
  r_rc : recording (p_reg c) = true; r_rs : recording (p_reg s) = true;
  r_reg : p_reg c' = p_reg c; r_cls : map fst (p_objs c') = map fst (p_objs c);
  r_fine : forall i k a, nth_error (p_objs c) i = Some (k, a) -> fine_class B k;
  r_len : length (heap (p_reg c)) = length (p_objs c);
  r_cnt : counter (p_reg c) = Z.of_nat (length (p_objs c));
  r_cnt_s : (counter (p_reg c) <= counter (p_reg s))%Z;
  r_len_s : length (heap (p_reg s)) = length (p_objs s0) + length (p_objs c);
  r_objs_s : length (p_objs s) = length (p_objs s0) + length (p_objs c);
  r_ids : forall i, i < length (p_objs c) -> id_of (p_reg c) i = Some (1 + Z.of_nat i)%Z;
  r_at : forall i, i < length (p_objs c) -> lookup (p_reg s) (1 + Z.of_nat i) = Some (length (p_objs s0) + i) /\
     id_of (p_reg s) (length (p_objs s0) + i) = Some (1 + Z.of_nat i)%Z /\
     nth_error (p_objs s) (length (p_objs s0) + i) = nth_error (p_objs c') i;
  r_old : untouched s0 s }.

Lemma rel_len s0 c c' s : rel s0 c c' s -> length (p_objs c') = length (p_objs c).
Proof. intros R. rewrite <- (map_length fst (p_objs c')), (r_cls _ _ _ _ R). apply map_length. Qed.

Lemma note_on p i cn mn sg args kw q : p_on p = true -> note E d p i cn mn sg args kw = Ok q ->
  exists ps c, recorded_parameters E d (oid_in (p_reg p) i) sg args kw = Ok ps /\
    mk_command (oid_in (p_reg p)) (Z.of_nat (length (p_log p))) cn mn ps = Ok c /\
    q = mkProc (p_reg p) (p_objs p) (p_log p ++ [c])%list true /\ c_class c = cn /\ c_method c = mn.
Proof.
  intros H. unfold note. cbv zeta. rewrite H. destruct (recorded_parameters _ _ _ _ _ _) as [ps|]; cbn [bind]; [|discriminate].
  destruct (mk_command _ _ _ _ ps) as [c|] eqn:C; cbn [bind]; [|discriminate]. intros X. injection X as <-. exists ps, c.
  repeat split; auto; unfold mk_command in C; destruct (dmem ps "id"); try discriminate; injection C as <-; reflexivity.
Qed.
Lemma note_off p i cn mn sg args kw ps : p_on p = false -> recorded_parameters E d (oid_in (p_reg p) i) sg args kw = Ok ps ->
  note E d p i cn mn sg args kw = Ok p.
Proof. intros H H'. unfold note. cbv zeta. now rewrite H', H. Qed.

(** The arguments of a call of a fine constructor. *)
Lemma handed_fine k args kw h : fine_class B k -> plain_call args kw -> handed k args kw = Ok h ->
  plain_call (fst (fst h)) (snd (fst h)) /\
  (k_own k = None /\ h = (args, kw, fun a => a) \/
   exists o b, k_own k = Some o /\ passes_on k o /\ bind_args (o_sig o) args kw = Ok b /\ h = ([], b, o_after o b)).
Proof.
  intros (Ps & _ & _ & O & _) P. unfold handed. destruct (k_own k) as [o|]; [|intros X; injection X as <-; cbn; auto].
  specialize (O o eq_refl). destruct O as (Po & Nm & Hd). destruct (bind_args (o_sig o) args kw) as [b|] eqn:Hb; cbn [bind]; [|discriminate].
  pose proof (bind_args_keys _ _ _ _ Hb) as K. rewrite Hd by congruence. cbn [bind]. intros X. injection X as <-. cbn [fst snd]. split.
  - assert (N : NoDup (dkeys b)) by (rewrite K; apply Po). split; [exact N|]. split; [intros v []|].
    intros n v I. apply (plain_bound _ _ _ _ Po P Hb n). now apply dget_nodup_in.
  - right. exists o, b. split; [reflexivity|]. split; [split; [exact Po|split; [exact Nm|exact Hd]]|]. split; [|reflexivity]. first [exact Hb|reflexivity].
Qed.
(** The attributes of an object made from given values for all parameters. *)
Definition after_of (k : class) (b : dict string value) : attrs -> attrs :=
  match k_own k with Some o => o_after o b | None => fun a => a end.
Lemma handed_full k kw b : fine_class B k -> dkeys b = p_names (k_sig k) -> (forall n, dget kw n = dget b n) ->
  exists kw1, handed k [] kw = Ok ([], kw1, after_of k b) /\ (forall n, dget kw1 n = dget b n) /\ (NoDup (dkeys kw) -> NoDup (dkeys kw1)).
Proof.
  intros (Ps & _ & _ & O & _) K G. unfold handed, after_of. destruct (k_own k) as [o|]; [|exists kw; auto].
  specialize (O o eq_refl). destruct O as (Po & Nm & Hd).
  rewrite (bind_full (o_sig o) kw b); [|apply Po|congruence|exact G]. cbn [bind]. rewrite Hd by exact K. cbn [bind]. exists b. repeat split.
  intros _. rewrite K. apply Ps.
Qed.
Lemma make_full p k kw b i q : fine_class B k -> dkeys b = p_names (k_sig k) -> (forall n, dget kw n = dget b n) -> NoDup (dkeys kw) ->
  make E d p k [] kw = Ok (q, i) ->
  exists a kw1, k_body k b = Ok a /\ i = length (p_objs p) /\ NoDup (dkeys kw1) /\ (forall n, dget kw1 n = dget b n) /\
    note E d (mkProc (fst (create (p_reg p))) (p_objs p ++ [(k, after_of k b a)])%list (p_log p) (p_on p)) (length (p_objs p)) (k_name k) (recorded_name k) (k_sig k) [] kw1 = Ok q.
Proof.
  intros F K G N. unfold make. destruct (handed_full k kw b F K G) as (kw1 & -> & G1 & N1). cbn [bind].
  destruct F as (Ps & _). rewrite (bind_full (k_sig k) kw1 b); [|apply Ps|exact K|exact G1]. cbn [bind].
  destruct (k_body k b) as [a|]; cbn [bind]; [|discriminate]. cbv zeta. destruct (note _ _ _ _ _ _ _ _ _) as [q'|] eqn:Q; cbn [bind]; [|discriminate].
  intros X. injection X as <- <-. exists a, kw1. auto.
Qed.

Lemma replay_registry s oid n : recording s = true -> length (heap s) = n ->
  (1 <= oid)%Z -> (oid <= counter s + 1)%Z ->
  let s1 := set_id (fst (create s)) n oid in
  let s2 := mkR (counter s1) (recording s1) (dset (objects s1) oid n) (heap s1) in
  counter s2 = (counter s + 1)%Z /\ recording s2 = true /\ heap s2 = (heap s ++ [oid])%list /\
  lookup s2 oid = Some n /\ forall z, (z < oid)%Z -> lookup s2 z = lookup s z.
Proof.
  intros Rec L P Q. cbv zeta. unfold set_id, create. cbn [fst heap counter recording objects]. rewrite L.
  rewrite nth_error_app2, L, Nat.sub_diag by lia. cbn [nth_error counter recording heap objects]. rewrite Rec.
  repeat split.
  - rewrite <- L. apply upd_snoc.
  - unfold lookup. cbn [objects]. rewrite dget_dset. now rewrite eqb_refl.
  - intros z Z. unfold lookup. cbn [objects]. rewrite dget_dset. change (eqb z oid) with (Z.eqb z oid). rewrite (proj2 (Z.eqb_neq z oid)) by lia.
    assert (M : dmem (dset (objects s) (1 + counter s)%Z n) (1 + counter s)%Z = true) by (unfold dmem; now rewrite dget_dset_same).
    rewrite M. rewrite dget_dset. change (eqb z oid) with (Z.eqb z oid). rewrite (proj2 (Z.eqb_neq z oid)) by lia.
    rewrite dget_ddel. change (eqb z (1 + counter s)%Z) with (Z.eqb z (1 + counter s)). rewrite (proj2 (Z.eqb_neq z _)) by lia.
    rewrite dget_dset. change (eqb z (1 + counter s)%Z) with (Z.eqb z (1 + counter s)). now rewrite (proj2 (Z.eqb_neq z _)) by lia.
Qed.
Lemma firstn_app_le {A} n (l r : list A) : n <= length l -> firstn n (l ++ r) = firstn n l.
Proof. intros H. rewrite firstn_app. replace (n - length l) with 0 by lia. apply app_nil_r. Qed.

Lemma step_new s0 c c' k args kw c1 st' c1' s : rel s0 c c' s -> fine_step B (New k args kw) ->
  do_step E d c (New k args kw) = Ok c1 -> convert_step E d ap c' (New k args kw) = Ok st' -> do_step E d c' st' = Ok c1' ->
  exists cmd s1, p_log c1 = (p_log c ++ [cmd])%list /\ redo E d ap B s (reload cmd) = Ok s1 /\ rel s0 c1 c1' s1.
Proof.
  intros R (F & P) D C D'. cbn [do_step] in D. cbn [convert_step] in C. unfold make in D.
  destruct (handed k args kw) as [h|] eqn:H; cbn [bind] in *; [|discriminate].
  destruct (handed_fine k args kw h F P H) as (Ph & _). destruct h as ((ar & kh) & af). cbn [fst snd] in *.
  unfold delivered_call in C. destruct (bind_args (k_sig k) ar kh) as [b|] eqn:Hb; cbn [bind] in *; [|discriminate].
  destruct (delivered E d ap _ b) as [b'|] eqn:Hd; cbn [bind] in *; [|discriminate]. injection C as <-.
  destruct (k_body k b) as [a|] eqn:Ha; cbn [bind] in D; [|discriminate]. cbv zeta in D.
  destruct (note _ _ _ _ _ _ _ _ _) as [q|] eqn:Q in D; cbn [bind] in D; [|discriminate]. cbn [fst] in D. injection D as <-.
  apply note_on in Q as (ps & cmd & Hr & Hc & -> & Cc & Cm); [|exact (r_on _ _ _ _ R)]. cbn [p_reg p_objs p_log p_on] in *.
  pose proof F as (Ps & FB & FP & FO & FM).
  pose proof (bind_args_keys _ _ _ _ Hb) as Kb. pose proof (delivered_keys _ _ _ _ _ _ Hd) as Kd. rewrite Kb in Kd.
  destruct (delivery E d ap _ (k_sig k) ar kh b b' ps _ _ _ _ cmd (objects (p_reg s)) (fun _ => "") (proj1 Ps) (proj1 Ph) Hb
     (plain_bound _ _ _ _ Ps Ph Hb) Hr Hc Hd) as (Gid & kw' & Res & Nk & Gk).
  set (n := length (p_objs c)) in *.
  assert (Id : oid_in (fst (create (p_reg c))) n = (1 + Z.of_nat n)%Z).
  { unfold oid_in, id_of, create. cbn [fst heap]. rewrite nth_error_app2, (r_len _ _ _ _ R) by (rewrite (r_len _ _ _ _ R); fold n; lia). fold n.
    rewrite Nat.sub_diag. cbn. rewrite (r_cnt _ _ _ _ R). fold n. lia. }
  rewrite Id in *.
  (* the converted program *)
  cbn [do_step] in D'. destruct (make E d c' k [] b') as [[q' i']|] eqn:M'; cbn [bind fst] in D'; [|discriminate]. injection D' as <-.
  assert (Nb' : NoDup (dkeys b')) by (rewrite Kd; apply Ps).
  destruct (make_full c' k b' b' i' q' F Kd (fun _ => eq_refl) Nb' M') as (a' & kw1 & Ha' & -> & N1 & G1 & Q').
  apply note_on in Q' as (ps' & cmd' & Hr' & Hc' & -> & _); [|exact (r_on' _ _ _ _ R)]. cbn [p_reg p_objs p_log p_on] in *.
  (* the process playing back *)
  destruct (handed_full k kw' b' F Kd Gk) as (kw2 & Hh & G2 & N2). specialize (N2 Nk).
  set (s1 := mkProc (fst (create (p_reg s))) (p_objs s ++ [(k, after_of k b' a')])%list (p_log s) (p_on s)).
  assert (MS : make E d s k [] kw' = Ok (s1, length (p_objs s))).
  { unfold make. rewrite Hh. cbn [bind]. rewrite (bind_full (k_sig k) kw2 b'); [|apply Ps|exact Kd|exact G2]. cbn [bind]. rewrite Ha'. cbn [bind]. cbv zeta.
    fold s1. assert (X : exists ps2, recorded_parameters E d (oid_in (p_reg s1) (length (p_objs s))) (k_sig k) [] kw2 = Ok ps2).
    { eapply (accept_same E d _ _ (k_sig k) [] kw1 [] kw2 b' ps'); [apply Ps|exact N1|exact N2| | |exact Hr']; apply bind_full; auto; apply Ps. }
    destruct X as (ps2 & Hr2).
    rewrite (note_off s1 _ _ _ _ _ _ ps2); [reflexivity|exact (r_off _ _ _ _ R)|exact Hr2]. }
  assert (Rd : redo E d ap B s (reload cmd) = let* r := make E d s k [] kw' in
     let s := set_id (p_reg (fst r)) (snd r) (1 + Z.of_nat n)%Z in
     Ok (mkProc (mkR (counter s) (recording s) (dset (objects s) (1 + Z.of_nat n)%Z (snd r)) (heap s)) (p_objs (fst r)) (p_log (fst r)) (p_on (fst r)))).
  { assert (RL : c_params (reload cmd) = c_params cmd /\ c_method (reload cmd) = "__init__" /\ dget B (c_class (reload cmd)) = Some k).
    { unfold reload. rewrite Cm. unfold recorded_name, replay_name in *. destruct (k_path k) as [pa|] eqn:Pa.
      - rewrite (FP pa eq_refl). auto.
      - cbn. rewrite Cc, Cm. auto. }
    destruct RL as (R1 & R2 & R3). unfold redo. rewrite R1, Gid, Res, R2, R3. cbn [bind oid_of]. reflexivity. }
  rewrite MS in Rd. cbn [bind fst snd] in Rd. cbv zeta in Rd. exists cmd. eexists. split; [reflexivity|]. split; [exact Rd|].
  pose proof (r_len_s _ _ _ _ R) as Ls. pose proof (r_objs_s _ _ _ _ R) as Lo. fold n in Ls, Lo.
  pose proof (r_cnt _ _ _ _ R) as Cn. pose proof (r_cnt_s _ _ _ _ R) as Cs. fold n in Cn.
  destruct (replay_registry (p_reg s) (1 + Z.of_nat n)%Z (length (p_objs s)) (r_rs _ _ _ _ R)) as (T1 & T2 & T3 & T4 & T5); [lia..|].
  unfold s1. cbn [p_reg p_objs p_log p_on] in *.
  pose proof (rel_len _ _ _ _ R) as L'. fold n in L'.
  constructor; cbn [p_reg p_objs p_log p_on].
  - reflexivity.
  - reflexivity.
  - exact (r_off _ _ _ _ R).
  - exact (r_rc _ _ _ _ R).
  - exact T2.
  - now rewrite (r_reg _ _ _ _ R).
  - rewrite !map_app. now rewrite (r_cls _ _ _ _ R).
  - intros i k0 a0 I. destruct (Nat.lt_ge_cases i n) as [J|J].
    + rewrite nth_error_app1 in I by exact J. exact (r_fine _ _ _ _ R _ _ _ I).
    + rewrite nth_error_app2 in I by exact J. fold n in I. destruct (i - n) as [|j]; cbn in I; [now injection I as <- _|now destruct j].
  - cbn [create fst heap]. rewrite !app_length. rewrite (r_len _ _ _ _ R). reflexivity.
  - cbn [create fst counter]. rewrite app_length. cbn [length]. fold n. lia.
  - rewrite T1. cbn [create fst counter]. lia.
  - rewrite T3, !app_length. cbn [length]. fold n. lia.
  - rewrite !app_length. cbn [length]. fold n. lia.
  - rewrite app_length. cbn [length]. fold n. intros i I. unfold id_of. cbn [create fst heap]. destruct (Nat.eq_dec i n) as [->|J].
    + rewrite nth_error_app2; rewrite (r_len _ _ _ _ R); fold n; [|lia]. rewrite Nat.sub_diag. cbn [nth_error]. f_equal. lia.
    + rewrite nth_error_app1 by (rewrite (r_len _ _ _ _ R); fold n; lia). apply (r_ids _ _ _ _ R). fold n. lia.
  - rewrite app_length. cbn [length]. fold n. intros i I. destruct (Nat.eq_dec i n) as [->|J].
    + rewrite <- Lo. split; [exact T4|]. split.
      * unfold id_of. rewrite T3, nth_error_app2 by lia. replace (length (p_objs s) - length (heap (p_reg s))) with 0 by lia. reflexivity.
      * rewrite nth_error_app2, Nat.sub_diag by lia. rewrite nth_error_app2, L', Nat.sub_diag by lia. reflexivity.
    + destruct (r_at _ _ _ _ R i) as (A1 & A2 & A3); [fold n; lia|]. split; [rewrite T5 by lia; exact A1|]. split.
      * unfold id_of in *. rewrite T3, nth_error_app1 by lia. exact A2.
      * rewrite nth_error_app1 by lia. rewrite nth_error_app1 by lia. exact A3.
  - destruct (r_old _ _ _ _ R) as (O1 & O2 & O3). split; [|split; [exact O2|exact O3]]. cbn [p_objs]. rewrite firstn_app_le by lia. exact O1.
Qed.

Lemma cls_eq (l l' : list (class * attrs)) i k a : map fst l' = map fst l -> nth_error l i = Some (k, a) -> exists a', nth_error l' i = Some (k, a').
Proof.
  intros M N. assert (X : nth_error (map fst l') i = Some k) by (rewrite M, nth_error_map, N; reflexivity).
  rewrite nth_error_map in X. destruct (nth_error l' i) as [[k' a']|]; [|discriminate]. injection X as ->. eauto.
Qed.
Lemma map_fst_upd (l : list (class * attrs)) i k a a' : nth_error l i = Some (k, a) -> map fst (upd l i (k, a')) = map fst l.
Proof. revert i. induction l as [|x l IH]; intros [|i] H; cbn in *; try discriminate; [injection H as ->; reflexivity|]. f_equal. now apply IH. Qed.
Lemma firstn_upd_ge {A} n (l : list A) i x : n <= i -> firstn n (upd l i x) = firstn n l.
Proof. revert n i. induction l as [|y l IH]; intros [|n] [|i] H; cbn; try reflexivity; [lia|]. f_equal. apply IH. lia. Qed.

Lemma step_do s0 c c' i m args kw c1 st' c1' s : rel s0 c c' s -> fine_step B (Do i m args kw) ->
  do_step E d c (Do i m args kw) = Ok c1 -> convert_step E d ap c' (Do i m args kw) = Ok st' -> do_step E d c' st' = Ok c1' ->
  exists cmd s1, p_log c1 = (p_log c ++ [cmd])%list /\ redo E d ap B s (reload cmd) = Ok s1 /\ rel s0 c1 c1' s1.
Proof.
  intros R P D C D'. cbn [do_step] in D. cbn [convert_step] in C. unfold call in D. cbn [fine_step] in P.
  destruct (nth_error (p_objs c) i) as [[k a]|] eqn:Oi; [|discriminate].
  destruct (cls_eq _ _ _ _ _ (r_cls _ _ _ _ R) Oi) as (a' & Oi'). rewrite Oi' in C.
  destruct (dget (k_meths k) m) as [md|] eqn:Md; [|discriminate].
  unfold delivered_call in C. destruct (bind_args (m_sig md) args kw) as [b|] eqn:Hb; cbn [bind] in *; [|discriminate].
  destruct (delivered E d ap _ b) as [b'|] eqn:Hd; cbn [bind] in *; [|discriminate]. injection C as <-.
  destruct (m_body md a b) as [an|] eqn:Ha; cbn [bind] in D; [|discriminate].
  apply note_on in D as (ps & cmd & Hr & Hc & -> & Cc & Cm); [|exact (r_on _ _ _ _ R)]. cbn [p_reg p_objs p_log p_on] in *.
  pose proof (r_fine _ _ _ _ R _ _ _ Oi) as F. pose proof F as (_ & _ & _ & _ & FM). destruct (FM _ _ Md) as (Ps & Ni & Nd).
  pose proof (bind_args_keys _ _ _ _ Hb) as Kb. pose proof (delivered_keys _ _ _ _ _ _ Hd) as Kd. rewrite Kb in Kd.
  destruct (delivery E d ap _ (m_sig md) args kw b b' ps _ _ _ _ cmd (objects (p_reg s)) (fun _ => "") (proj1 Ps) (proj1 P) Hb
     (plain_bound _ _ _ _ Ps P Hb) Hr Hc Hd) as (Gid & kw' & Res & Nk & Gk).
  assert (Li : i < length (p_objs c)) by (apply nth_error_Some; congruence).
  assert (Id : oid_in (p_reg c) i = (1 + Z.of_nat i)%Z) by (unfold oid_in; now rewrite (r_ids _ _ _ _ R i Li)).
  rewrite Id in *.
  assert (Nb' : NoDup (dkeys b')) by (rewrite Kd; apply Ps).
  cbn [do_step] in D'. unfold call in D'. rewrite Oi', Md in D'. rewrite (bind_full (m_sig md) b' b') in D'; [|apply Ps|exact Kd|reflexivity]. cbn [bind] in D'.
  destruct (m_body md a' b') as [an'|] eqn:Ha'; cbn [bind] in D'; [|discriminate].
  apply note_on in D' as (ps' & cmd' & Hr' & Hc' & -> & _); [|exact (r_on' _ _ _ _ R)]. cbn [p_reg p_objs p_log p_on] in *.
  destruct (r_at _ _ _ _ R i Li) as (A1 & A2 & A3). rewrite Oi' in A3. set (j := length (p_objs s0) + i) in *.
  exists cmd. exists (mkProc (p_reg s) (upd (p_objs s) j (k, an')) (p_log s) (p_on s)). split; [reflexivity|]. split.
  - unfold reload. rewrite Cm, Nd. unfold redo. rewrite Gid, Res. cbn [bind oid_of]. rewrite Cm, (proj2 (String.eqb_neq m "__init__") Ni), A1.
    unfold call. rewrite A3, Md, (bind_full (m_sig md) kw' b'); [|apply Ps|exact Kd|exact Gk]. cbn [bind]. rewrite Ha'. cbn [bind].
    assert (X : exists ps2, recorded_parameters E d (oid_in (p_reg s) j) (m_sig md) [] kw' = Ok ps2).
    { eapply (accept_same E d _ _ (m_sig md) [] b' [] kw' b' ps'); [apply Ps|exact Nb'|exact Nk| | |exact Hr']; apply bind_full; auto; apply Ps. }
    destruct X as (ps2 & Hr2).
    eapply note_off; [exact (r_off _ _ _ _ R)|exact Hr2].
  - constructor; cbn [p_reg p_objs p_log p_on]; rewrite ?upd_length; try apply R; auto.
    + rewrite (map_fst_upd _ _ _ _ _ Oi), (map_fst_upd _ _ _ _ _ Oi'). apply R.
    + intros x k0 a0 I. rewrite nth_error_upd in I. destruct (x =? i).
      * destruct (nth_error (p_objs c) x); [|discriminate]. now injection I as <- _.
      * exact (r_fine _ _ _ _ R _ _ _ I).
    + intros x I. destruct (r_at _ _ _ _ R x I) as (B1 & B2 & B3). split; [exact B1|]. split; [exact B2|].
      rewrite !nth_error_upd. unfold j. destruct (Nat.eq_dec x i) as [->|J].
      * rewrite !Nat.eqb_refl. fold j. rewrite A3, Oi'. reflexivity.
      * rewrite (proj2 (Nat.eqb_neq x i) J). rewrite (proj2 (Nat.eqb_neq (length (p_objs s0) + x) (length (p_objs s0) + i))) by lia. exact B3.
    + destruct (r_old _ _ _ _ R) as (O1 & O2 & O3). split; [|split; [exact O2|exact O3]]. cbn [p_objs]. rewrite firstn_upd_ge by (unfold j; lia). exact O1.
Qed.

Lemma redo_app l1 l2 s : redo_all E d ap B s (l1 ++ l2) = let* q := redo_all E d ap B s l1 in redo_all E d ap B q l2.
Proof. revert s. induction l1 as [|c l1 IH]; intros s; cbn [app redo_all bind]; [reflexivity|]. destruct (redo _ _ _ _ _ _); cbn [bind]; auto. Qed.
Lemma steps_related l : forall s0 c c' s cF cF', rel s0 c c' s -> Forall (fine_step B) l ->
  do_steps E d c l = Ok cF -> do_converted E d ap c' l = Ok cF' ->
  exists L sF, p_log cF = (p_log c ++ L)%list /\ redo_all E d ap B s L = Ok sF /\ rel s0 cF cF' sF.
Proof.
  induction l as [|st l IH]; intros s0 c c' s cF cF' R F D C; cbn [do_steps do_converted] in *.
  - injection D as <-. injection C as <-. exists [], s. rewrite app_nil_r. auto.
  - apply Forall_cons_iff in F as [F Fl].
    destruct (do_step E d c st) as [c1|] eqn:D1; cbn [bind] in D; [|discriminate].
    destruct (convert_step E d ap c' st) as [st'|] eqn:C1; cbn [bind] in C; [|discriminate].
    destruct (do_step E d c' st') as [c1'|] eqn:D1'; cbn [bind] in C; [|discriminate].
    assert (X : exists cmd s1, p_log c1 = (p_log c ++ [cmd])%list /\ redo E d ap B s (reload cmd) = Ok s1 /\ rel s0 c1 c1' s1).
    { destruct st as [k args kw|i m args kw]; [eapply step_new|eapply step_do]; eauto. }
    destruct X as (cmd & s1 & L1 & R1 & X). destruct (IH _ _ _ _ _ _ X Fl D C) as (L & sF & L2 & R2 & Y).
    exists (cmd :: L), sF. split; [rewrite L2, L1, <- app_assoc; reflexivity|]. split; [cbn [redo_all]; rewrite R1; exact R2|exact Y].
Qed.
End Simulation.

Lemma rel_start B s : able s -> rel B s fresh fresh (loading s).
Proof.
  intros (A1 & A2 & A3). constructor; cbn [loading fresh rinit p_on p_reg p_objs p_log recording objects counter heap length map]; try reflexivity; auto; try lia.
  all: try (intros [|i]; discriminate); try (intros i I; exfalso; lia).
  split; [apply firstn_all|split; reflexivity].
Qed.
Lemma rel_rebuilt B s0 c c' s : rel B s0 c c' s -> rebuilt_as c (p_objs c') s /\ untouched s0 s.
Proof.
  intros R. split; [|apply R]. split; [apply (rel_len _ _ _ _ _ R)|]. intros i I. destruct (r_at _ _ _ _ _ R i I) as (A1 & A2 & A3).
  exists (1 + Z.of_nat i)%Z, (length (p_objs s0) + i). split; [apply (r_ids _ _ _ _ _ R i I)|]. auto.
Qed.
Lemma session E d ap B l c c' s : Forall (fine_step B) l -> able s ->
  do_steps E d fresh l = Ok c -> do_converted E d ap fresh l = Ok c' ->
  exists s', redo_all E d ap B (loading s) (p_log c) = Ok s' /\ rebuilt_as c (p_objs c') s' /\ untouched s s'.
Proof.
  intros F A D C. destruct (steps_related E d ap B l s fresh fresh (loading s) c c' (rel_start B s A) F D C) as (L & s' & EL & R & X).
  cbn in EL. subst L. exists s'. split; [exact R|]. exact (rel_rebuilt _ _ _ _ _ X).
Qed.

(** ** Nothing converted *)
Lemma delivered_same E d ap ann b : (forall n v, In (n, v) b -> recorded_value E d ann n v = Ok v /\ plain v = true) -> delivered E d ap ann b = Ok b.
Proof.
  induction b as [|[n v] b IH]; intros H; cbn [delivered]; [reflexivity|]. destruct (H n v) as (-> & P); [now left|]. cbn [bind].
  assert (X : applied ap v = Ok v) by (destruct v; try discriminate P; reflexivity). rewrite X. cbn [bind]. rewrite IH; [reflexivity|]. intros; apply H; now right.
Qed.
Lemma note_ok E d p i cn mn sg args kw b ps : valid_sig sg -> NoDup (dkeys kw) -> bind_args sg args kw = Ok b ->
  recorded_parameters E d (oid_in (p_reg p) i) sg args kw = Ok ps ->
  exists q, note E d p i cn mn sg args kw = Ok q /\ p_reg q = p_reg p /\ p_objs q = p_objs p /\ p_on q = p_on p.
Proof.
  intros Hs N Hb Hr. unfold note. cbv zeta. rewrite Hr. cbn [bind]. destruct (p_on p) eqn:O; [|eauto].
  destruct (mk_command (oid_in (p_reg p)) (Z.of_nat (length (p_log p))) cn mn ps) as [c|] eqn:C; cbn [bind].
  - eexists. split; [reflexivity|]. auto.
  - exfalso. unfold mk_command in C. destruct (dmem ps "id") eqn:D; [discriminate|].
    apply dmem_false, dget_none in D. apply D. destruct (check_parameters_get _ _ _ _ _ Hr) as (-> & _).
    destruct (build_get (oid_in (p_reg p) i) sg args kw b Hs N Hb) as (I & _). apply dmem_in. unfold dmem. now rewrite I.
Qed.
Lemma note_same E d p i cn mn sg args kw q : note E d p i cn mn sg args kw = Ok q ->
  p_reg q = p_reg p /\ p_objs q = p_objs p /\ p_on q = p_on p /\ exists ps, recorded_parameters E d (oid_in (p_reg p) i) sg args kw = Ok ps.
Proof.
  unfold note. cbv zeta. destruct (recorded_parameters _ _ _ _ _ _) as [ps|]; cbn [bind]; [|discriminate]. destruct (p_on p) eqn:O.
  - destruct (mk_command _ _ _ _ _); cbn [bind]; [|discriminate]. intros X. injection X as <-. cbn [p_reg p_objs p_on]. eauto.
  - intros X. injection X as <-. eauto.
Qed.
Definition alike (c c' : proc) : Prop := p_reg c = p_reg c' /\ p_objs c = p_objs c' /\ p_on c = p_on c'.
Lemma kept_step E d ap B c c' st c1 : alike c c' -> (forall i k a, nth_error (p_objs c) i = Some (k, a) -> fine_class B k) -> fine_step B st -> keeps E d c st -> do_step E d c st = Ok c1 ->
  exists st' c1', convert_step E d ap c' st = Ok st' /\ do_step E d c' st' = Ok c1' /\ alike c1 c1' /\
    (forall i k a, nth_error (p_objs c1) i = Some (k, a) -> fine_class B k).
Proof.
  intros (A1 & A2 & A3) FC F K D. destruct st as [k args kw|i m args kw].
  - destruct F as (F & P). cbn [do_step] in D. unfold make in D. cbn [keeps] in K. destruct (handed k args kw) as [h|] eqn:H; cbn [bind] in D; [|discriminate].
    specialize (K h eq_refl). destruct (handed_fine B k args kw h F P H) as (Ph & Ho). destruct h as ((ar & kh) & af). cbn [fst snd] in *.
    destruct (bind_args (k_sig k) ar kh) as [b|] eqn:Hb; cbn [bind] in D; [|discriminate].
    destruct (k_body k b) as [a|] eqn:Ha; cbn [bind] in D; [|discriminate]. cbv zeta in D.
    destruct (note _ _ _ _ _ _ _ _ _) as [q|] eqn:Q in D; cbn [bind fst] in D; [|discriminate]. injection D as <-.
    pose proof F as (Ps & _). pose proof (bind_args_keys _ _ _ _ Hb) as Kb.
    assert (Nb : NoDup (dkeys b)) by (rewrite Kb; apply Ps).
    cbn [convert_step]. rewrite H. cbn [bind fst snd]. unfold delivered_call. rewrite Hb. cbn [bind].
    rewrite delivered_same. 2:{ intros n v I. split; [exact (K b n v Hb I)|]. apply (plain_bound _ _ _ _ Ps Ph Hb n). now apply dget_nodup_in. }
    cbn [bind]. exists (New k [] b). cbn [do_step]. unfold make.
    destruct (handed_full B k b b F Kb (fun _ => eq_refl)) as (kw1 & -> & G1 & N1). specialize (N1 Nb). cbn [bind].
    rewrite (bind_full (k_sig k) kw1 b); [|apply Ps|exact Kb|exact G1]. cbn [bind]. rewrite Ha. cbn [bind]. cbv zeta.
    assert (EA : after_of k b = af).
    { unfold after_of. destruct Ho as [(O & X)|(o & b0 & O & (Po & Nm & _) & Hb0 & X)]; rewrite O; injection X as -> -> ->; [reflexivity|].
      assert (b = b0) as ->; [|reflexivity]. rewrite (bind_full (k_sig k) b0 b0) in Hb; [congruence|apply Ps|rewrite <- Nm; exact (bind_args_keys _ _ _ _ Hb0)|reflexivity]. }
    rewrite EA, <- A1, <- A2, <- A3.
    destruct (note_same _ _ _ _ _ _ _ _ _ _ Q) as (S1 & S2 & S3 & ps & Hr). cbn [p_reg p_objs p_on] in *.
    assert (X : exists ps2, recorded_parameters E d (oid_in (fst (create (p_reg c))) (length (p_objs c))) (k_sig k) [] kw1 = Ok ps2).
    { eapply (accept_same E d _ _ (k_sig k) ar kh [] kw1 b ps); [apply Ps|apply Ph|exact N1|exact Hb| |exact Hr]. apply bind_full; [apply Ps|exact Kb|exact G1]. }
    destruct X as (ps2 & Hr2).
    destruct (note_ok E d (mkProc (fst (create (p_reg c))) (p_objs c ++ [(k, af a)])%list (p_log c') (p_on c)) (length (p_objs c)) (k_name k) (recorded_name k) (k_sig k) [] kw1 b ps2)
      as (q' & Hq & B1 & B2 & B3); [apply Ps|exact N1|apply bind_full; [apply Ps|exact Kb|exact G1]|exact Hr2|].
    rewrite Hq. cbn [bind fst]. eexists. split; [reflexivity|]. split; [reflexivity|]. cbn [p_reg p_objs p_on] in *. split; [repeat split; congruence|].
    rewrite S2. intros i k0 a0 I. destruct (Nat.lt_ge_cases i (length (p_objs c))) as [J|J].
    + rewrite nth_error_app1 in I by exact J. eauto.
    + rewrite nth_error_app2 in I by exact J. destruct (i - length (p_objs c)) as [|j]; cbn in I; [now injection I as <- _|now destruct j].
  - cbn [do_step] in D. unfold call in D. cbn [keeps] in K. cbn [fine_step] in F.
    destruct (nth_error (p_objs c) i) as [[k a]|] eqn:Oi; [|discriminate]. destruct (dget (k_meths k) m) as [md|] eqn:Md; [|discriminate].
    specialize (K k a md eq_refl Md). destruct (bind_args (m_sig md) args kw) as [b|] eqn:Hb; cbn [bind] in D; [|discriminate].
    destruct (m_body md a b) as [an|] eqn:Ha; cbn [bind] in D; [|discriminate].
    pose proof (FC _ _ _ Oi) as Fk. pose proof Fk as (_ & _ & _ & _ & FM). destruct (FM _ _ Md) as (Ps & _).
    pose proof (bind_args_keys _ _ _ _ Hb) as Kb. assert (Nb : NoDup (dkeys b)) by (rewrite Kb; apply Ps).
    cbn [convert_step]. rewrite <- A2, Oi, Md. unfold delivered_call. rewrite Hb. cbn [bind].
    rewrite delivered_same. 2:{ intros n v I. split; [exact (K b n v Hb I)|]. apply (plain_bound _ _ _ _ Ps F Hb n). now apply dget_nodup_in. }
    cbn [bind]. exists (Do i m [] b). cbn [do_step]. unfold call. rewrite <- A2, Oi, Md. rewrite (bind_full (m_sig md) b b); [|apply Ps|exact Kb|reflexivity]. cbn [bind].
    rewrite Ha. cbn [bind]. rewrite <- A1, <- A3.
    destruct (note_same _ _ _ _ _ _ _ _ _ _ D) as (S1 & S2 & S3 & ps & Hr). cbn [p_reg p_objs p_on] in *.
    assert (X : exists ps2, recorded_parameters E d (oid_in (p_reg c) i) (m_sig md) [] b = Ok ps2).
    { eapply (accept_same E d _ _ (m_sig md) args kw [] b b ps); [apply Ps|apply F|exact Nb|exact Hb| |exact Hr]. apply bind_full; [apply Ps|exact Kb|reflexivity]. }
    destruct X as (ps2 & Hr2).
    destruct (note_ok E d (mkProc (p_reg c) (upd (p_objs c) i (k, an)) (p_log c') (p_on c)) i (k_name k) m (m_sig md) [] b b ps2)
      as (q' & Hq & B1 & B2 & B3); [apply Ps|exact Nb|apply bind_full; [apply Ps|exact Kb|reflexivity]|exact Hr2|].
    rewrite Hq. exists q'. split; [reflexivity|]. split; [reflexivity|]. cbn [p_reg p_objs p_on] in *. split; [repeat split; congruence|].
    rewrite S2. intros x k0 a0 I. rewrite nth_error_upd in I. destruct (x =? i); [|eauto]. destruct (nth_error (p_objs c) x); [|discriminate]. now injection I as <- _.
Qed.
Lemma kept_steps E d ap B l : forall c c' cF, alike c c' -> (forall i k a, nth_error (p_objs c) i = Some (k, a) -> fine_class B k) -> Forall (fine_step B) l ->
  all_kept E d c l -> do_steps E d c l = Ok cF -> exists cF', do_converted E d ap c' l = Ok cF' /\ p_objs cF' = p_objs cF.
Proof.
  induction l as [|st l IH]; intros c c' cF A FC F K D; cbn [do_steps do_converted all_kept] in *.
  - injection D as <-. exists c'. split; [reflexivity|]. symmetry. apply A.
  - apply Forall_cons_iff in F as [F Fl]. destruct K as (K & Kl). destruct (do_step E d c st) as [c1|] eqn:D1; cbn [bind] in D; [|discriminate].
    destruct (kept_step E d ap B c c' st c1 A FC F K D1) as (st' & c1' & -> & D1' & A1 & FC1). cbn [bind]. rewrite D1'. cbn [bind]. eauto.
Qed.
Lemma exact_session E d ap B l c s : Forall (fine_step B) l -> able s -> all_kept E d fresh l -> do_steps E d fresh l = Ok c ->
  exists s', redo_all E d ap B (loading s) (p_log c) = Ok s' /\ rebuilt_as c (p_objs c) s' /\ untouched s s'.
Proof.
  intros F A K D. destruct (kept_steps E d ap B l fresh fresh c (conj eq_refl (conj eq_refl eq_refl))) as (c' & C & O); [intros [|i]; discriminate|exact F|exact K|exact D|].
  rewrite <- O. eapply session; eassumption.
Qed.

(** ** Names *)
Lemma bind_required ps kw b p : bind_params ps [] kw = Ok b -> In p ps -> p_default p = None -> In (p_name p) (dkeys kw).
Proof.
  revert b. induction ps as [|q ps IH]; intros b H I N; [contradiction|]. cbn [bind_params] in H. destruct (dget kw (p_name q)) as [v|] eqn:V.
  - destruct (bind_params ps [] kw) as [r|] eqn:Q; cbn [bind] in H; [|discriminate]. destruct I as [->|I]; [exact (dget_some_in _ _ _ V)|eauto].
  - destruct (p_default q) as [dv|] eqn:Dq; [|discriminate]. destruct (bind_params ps [] kw) as [r|] eqn:Q; cbn [bind] in H; [|discriminate].
    destruct I as [->|I]; [congruence|eauto].
Qed.
Lemma other_names E d ap B k o p q i args kw cmd s :
  k_own k = Some o -> plain_sig (k_sig k) -> k_path k = None -> dget B (k_name k) = Some k ->
  (exists prm, In prm (s_params (o_sig o)) /\ p_default prm = None /\ ~ In (p_name prm) (p_names (k_sig k))) \/
  (exists n, In n (p_names (k_sig k)) /\ ~ In n (p_names (o_sig o))) ->
  (forall b h, o_hand o b = Ok h -> plain_call [] h) ->
  p_on p = true -> make E d p k args kw = Ok (q, i) -> p_log q = (p_log p ++ [cmd])%list ->
  is_ok (redo E d ap B s (reload cmd)) = false.
Proof.
  intros O Ps Pa HB Bad Hp On M L. unfold make, handed in M. rewrite O in M. destruct (bind_args (o_sig o) args kw) as [b0|]; cbn [bind] in M; [|discriminate].
  destruct (o_hand o b0) as [h|] eqn:Hh; cbn [bind] in M; [|discriminate]. specialize (Hp _ _ Hh).
  destruct (bind_args (k_sig k) [] h) as [b|] eqn:Hb; cbn [bind] in M; [|discriminate]. destruct (k_body k b) as [a|]; cbn [bind] in M; [|discriminate]. cbv zeta in M.
  destruct (note _ _ _ _ _ _ _ _ _) as [q'|] eqn:Q in M; cbn [bind] in M; [|discriminate]. injection M as -> _.
  apply note_on in Q as (ps & c & Hr & Hc & -> & Cc & Cm); [|exact On]. cbn [p_log p_reg] in *. apply app_inj_tail in L as [_ <-].
  unfold recorded_name in Cm. rewrite Pa in Cm. unfold reload. rewrite Cm. change (contains "." "__init__") with false. cbv iota.
  unfold redo. destruct (dget (c_params c) "id") as [idv|]; [|reflexivity].
  destruct (resolve (objects (p_reg s)) (fun _ => "") ap (c_params c)) as [kw'|] eqn:Res; cbn [bind]; [|reflexivity].
  destruct (oid_of idv); [|reflexivity]. rewrite Cm. change (String.eqb "__init__" "__init__") with true. cbv iota. rewrite Cc, HB.
  assert (Z : exists e, bind_args (o_sig o) [] kw' = Err e).
  { destruct (bind_args (o_sig o) [] kw') as [b'|] eqn:Hb'; [|eauto]. exfalso. unfold bind_args in Hb'.
    destruct (forallb _ (dkeys kw')) eqn:Fb; [|discriminate]. destruct Bad as [(prm & I & N & J)|(n & I & J)].
    - apply J. apply (replay_no_extra E d _ (k_sig k) [] h b ps _ _ _ _ c (objects (p_reg s)) (fun _ => "") ap kw' (proj1 Ps) (proj1 Hp) Hb Hr Hc Res). eapply bind_required; eassumption.
    - pose proof (bind_args_keys _ _ _ _ Hb) as Kb. rewrite <- Kb in I. destruct (ProtocolFacts.dget_in b n I) as (v & V).
      destruct (replay_value E d _ (k_sig k) [] h b ps _ _ _ _ c (objects (p_reg s)) (fun _ => "") ap kw' (proj1 Ps) (proj1 Hp) Hb Hr Hc Res n v V (plain_bound _ _ _ _ Ps Hp Hb n v V)) as (x & X & _).
      rewrite forallb_forall in Fb. specialize (Fb n (dget_some_in _ _ _ X)). apply existsb_exists in Fb as (y & Y & Z). apply String.eqb_eq in Z as ->. contradiction. }
  destruct Z as (e & Z). unfold make, handed. rewrite O, Z. reflexivity.
Qed.

(** ** Inherited dotted names *)
Lemma other_class E d ap B k k' path p q i args kw cmd s s' :
  k_path k = Some path -> contains "." path = true -> dget B path = Some k' ->
  p_on p = true -> make E d p k args kw = Ok (q, i) -> p_log q = (p_log p ++ [cmd])%list ->
  redo E d ap B s (reload cmd) = Ok s' -> length (p_objs s) = length (heap (p_reg s)) ->
  exists z a, dget (c_params cmd) "id" = Some z /\
    match oid_of z with Some z => lookup (p_reg s') z = Some (length (p_objs s)) | None => False end /\
    nth_error (p_objs s') (length (p_objs s)) = Some (k', a).
Proof.
  intros Pa Dot HB On M L R Len. unfold make in M. destruct (handed k args kw) as [((ar & kh) & af)|]; cbn [bind] in M; [|discriminate].
  destruct (bind_args (k_sig k) ar kh) as [b|]; cbn [bind] in M; [|discriminate]. destruct (k_body k b) as [a|]; cbn [bind] in M; [|discriminate]. cbv zeta in M.
  destruct (note _ _ _ _ _ _ _ _ _) as [q'|] eqn:Q in M; cbn [bind] in M; [|discriminate]. injection M as -> _.
  apply note_on in Q as (ps & c & Hr & Hc & -> & Cc & Cm); [|exact On]. cbn [p_log] in L. apply app_inj_tail in L as [_ <-].
  unfold recorded_name in Cm. rewrite Pa in Cm. unfold reload in R. rewrite Cm, Dot in R. unfold redo in R. cbn [c_params c_method c_class] in R.
  destruct (dget (c_params c) "id") as [idv|]; [|discriminate]. destruct (resolve _ _ _ _) as [kw'|]; cbn [bind] in R; [|discriminate].
  exists idv. destruct (oid_of idv) as [z|] eqn:Oid; [|discriminate]. change (String.eqb "__init__" "__init__") with true in R. cbv iota in R. rewrite HB in R.
  unfold make in R. destruct (handed k' [] kw') as [((ar' & kh') & af')|]; cbn [bind] in R; [|discriminate].
  destruct (bind_args (k_sig k') ar' kh') as [b'|]; cbn [bind] in R; [|discriminate]. destruct (k_body k' b') as [a'|]; cbn [bind] in R; [|discriminate]. cbv zeta in R.
  destruct (note _ _ _ _ _ _ _ _ _) as [s1|] eqn:Q in R; cbn [bind fst snd] in R; [|discriminate]. injection R as <-.
  destruct (note_same _ _ _ _ _ _ _ _ _ _ Q) as (_ & S2 & _). cbn [p_objs p_reg] in *. exists (af' a'). split; [reflexivity|]. split.
  - unfold lookup. cbn [objects]. apply dget_dset_same.
  - rewrite S2, nth_error_app2, Nat.sub_diag by lia. reflexivity.
Qed.

(** ** Examples *)
Lemma twice_applied : exists k o c s',
  k_own k = Some o /\ p_names (o_sig o) = p_names (k_sig k) /\
  do_steps E1 [] fresh [New k [VInt 1] []] = Ok c /\
  redo_all E1 [] float_to_int [(k_name k, k)] (loading fresh) (p_log c) = Ok s' /\
  p_objs c = [(k, [("value", VInt 2)])] /\ p_objs s' = [(k, [("value", VInt 4)])].
Proof.
  exists Twice. eexists. eexists. eexists. split; [reflexivity|]. split; [reflexivity|]. split; [reflexivity|]. split; [reflexivity|]. split; reflexivity.
Qed.
Lemma one_sig_plain t : plain_sig (mkS [mkP "value" None (Some [t])] []).
Proof.
  split.
  - split; [|split].
    + apply NoDup_cons; [intros []|apply NoDup_nil].
    + intros p [<-|[]]. split; [discriminate|reflexivity].
    + intros p dv [<-|[]]. discriminate.
  - intros n v. cbn. discriminate.
Qed.
Lemma no_sig_plain : plain_sig (mkS [] []).
Proof. split; [split; [constructor|split; [intros p []|intros p dv []]]|intros n v; discriminate]. Qed.
Lemma one_method m md : dget [("update", update)] m = Some md -> plain_sig (m_sig md) /\ m <> "__init__" /\ contains "." m = false.
Proof.
  intros H. cbn [dget] in H. change (eqb m "update") with (String.eqb m "update") in H. destruct (String.eqb m "update") eqn:Q; [|discriminate].
  apply String.eqb_eq in Q as ->. injection H as <-. split; [exact no_sig_plain|]. split; [discriminate|reflexivity].
Qed.
Lemma plain_one v : plain v = true -> plain_call [v] [].
Proof. intros H. split; [constructor|]. split; [intros w [<-|[]]; exact H|intros n w []]. Qed.
Lemma plain_none : plain_call [] [].
Proof. split; [constructor|]. split; [intros w []|intros n w []]. Qed.
Lemma plain_kw n v : plain v = true -> plain_call [] [(n, v)].
Proof. intros H. split; [apply NoDup_cons; [intros []|apply NoDup_nil]|]. split; [intros w []|]. intros k w [X|[]]. now injection X as <- <-. Qed.
Lemma foo_class B : dget B "Foo" = Some Foo -> fine_class B Foo.
Proof. intros H. split; [apply one_sig_plain|]. split; [exact H|]. split; [discriminate|]. split; [discriminate|]. exact one_method. Qed.
Lemma foo_fine : Forall (fine_step [("Foo", Foo)]) foo_program /\ able fresh /\ able busy.
Proof.
  split; [|split; (split; [reflexivity|split; [discriminate|reflexivity]])].
  apply Forall_cons; [split; [now apply foo_class|now apply plain_one]|]. apply Forall_cons; [exact plain_none|apply Forall_nil].
Qed.
Lemma bar_fine : Forall (fine_step [("Foo", Foo); ("Bar", Bar)]) bar_program /\ all_kept E1 conversions fresh bar_program.
Proof.
  split.
  - assert (G : fine_class [("Foo", Foo); ("Bar", Bar)] Bar).
    { split; [apply one_sig_plain|]. split; [reflexivity|]. split; [discriminate|]. split; [|exact one_method].
      intros o H. injection H as <-. split; [apply one_sig_plain|]. split; reflexivity. }
    apply Forall_cons; [split; [exact G|now apply plain_one]|]. apply Forall_cons; [split; [now apply foo_class|now apply plain_kw]|].
    repeat (apply Forall_cons; [exact plain_none|]). apply Forall_nil.
  - assert (V : forall z, as_given E1 conversions value_sig [] [("value", VInt z)]).
    { intros z b n v H I. cbn in H. injection H as <-. destruct I as [I|[]]. injection I as <- <-. reflexivity. }
    assert (N : as_given E1 conversions (mkS [] []) [] []).
    { intros b n v H I. cbn in H. injection H as <-. destruct I. }
    unfold bar_program. cbn [all_kept]. split; [intros h H; cbn in H; injection H as <-; apply V|].
    match goal with |- context [do_step ?E ?d ?p ?s] => let r := eval vm_compute in (do_step E d p s) in change (do_step E d p s) with r end. cbv iota beta.
    split; [intros h H; cbn in H; injection H as <-; apply V|].
    repeat (match goal with |- context [do_step ?E ?d ?p ?s] => let r := eval vm_compute in (do_step E d p s) in change (do_step E d p s) with r end; cbv iota beta;
      try (split; [intros k a md H M; cbn in H; injection H as <- <-; cbn in M; injection M as <-; exact N|])).
    exact Logic.I.
Qed.
