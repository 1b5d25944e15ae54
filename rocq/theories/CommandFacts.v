(** Proofs about Command.v. *)
From Verif Require Import Base Registry Convert Command CommandSpec.
Open Scope string_scope.

(** ** Strings *)
Lemma app_nil_string s : s ++ "" = s.
Proof. induction s as [|c s IH]; cbn; congruence. Qed.
Lemma string_length_app a b : String.length (a ++ b) = (String.length a + String.length b)%nat.
Proof. induction a as [|c a IH]; cbn; congruence. Qed.
Lemma strip_id_app k : strip_id (k ++ "(id)") = Some k.
Proof.
  induction k as [|c k IH]; [reflexivity|].
  change (String c k ++ "(id)") with (String c (k ++ "(id)")). cbn [strip_id].
  destruct (String.eqb_spec (String c (k ++ "(id)")) "(id)") as [E|_].
  - exfalso. assert (H : String.length (String c (k ++ "(id)")) = 4%nat) by now rewrite E.
    cbn in H. rewrite string_length_app in H. cbn in H. lia.
  - now rewrite IH.
Qed.
Lemma strip_id_some k k' : strip_id k = Some k' -> k = k' ++ "(id)".
Proof.
  revert k'; induction k as [|c k IH]; intros k' H; [discriminate|].
  cbn [strip_id] in H. destruct (String.eqb_spec (String c k) "(id)") as [E|_].
  - injection H as <-. exact E.
  - destruct (strip_id k) as [r|]; [|discriminate]. injection H as <-. cbn. f_equal. auto.
Qed.
Lemma app_id_inj a b : a ++ "(id)" = b ++ "(id)" -> a = b.
Proof. intros H. apply (f_equal strip_id) in H. rewrite !strip_id_app in H. congruence. Qed.
Lemma app_id_not_valid a b : strip_id b = None -> a ++ "(id)" <> b.
Proof. intros H E. subst b. rewrite strip_id_app in H. discriminate. Qed.
Lemma app_id_not_id a : a ++ "(id)" <> "id".
Proof. intros E. apply (f_equal strip_id) in E. rewrite strip_id_app in E. discriminate. Qed.

(** ** The parameter dictionary as a list *)
Definition stored (l : dict string value) : dict string value :=
  map (fun kv => (key_of (fst kv) (snd kv), snd kv)) l.

Lemma key_of_inj k1 v1 k2 v2 :
  strip_id k1 = None -> strip_id k2 = None -> key_of k1 v1 = key_of k2 v2 -> k1 = k2.
Proof.
  unfold key_of. intros H1 H2. destruct (is_object v1), (is_object v2); intros E; auto.
  - now apply app_id_inj.
  - exfalso. revert E. now apply app_id_not_valid.
  - exfalso. symmetry in E. revert E. now apply app_id_not_valid.
Qed.
Lemma key_of_neq_id k v : k <> "id" -> strip_id k = None -> key_of k v <> "id".
Proof. unfold key_of. destruct (is_object v); auto. intros _ _. apply app_id_not_id. Qed.

Lemma stored_app l1 l2 : stored (l1 ++ l2)%list = (stored l1 ++ stored l2)%list.
Proof. apply map_app. Qed.
Lemma stored_in k l : In k (dkeys (stored l)) -> exists k0 v, In (k0, v) l /\ k = key_of k0 v.
Proof.
  unfold dkeys, stored. rewrite map_map. intros H. apply in_map_iff in H as ([k0 v] & <- & H). eauto.
Qed.

Lemma add_positional_list l : forall p0,
  NoDup (dkeys l) -> (forall k, In k (dkeys l) -> strip_id k = None) ->
  (forall k v, In (k, v) l -> ~ In (key_of k v) (dkeys p0)) ->
  fold_left add_positional l p0 = (p0 ++ stored l)%list.
Proof.
  induction l as [|[k v] l IH]; intros p0 Hnd Hval Hni; cbn [fold_left stored map]; [now rewrite app_nil_r|].
  cbn [dkeys map fst] in Hnd. inversion Hnd as [|? ? Hk Hnd']; subst.
  assert (E : add_positional p0 (k, v) = (p0 ++ [(key_of k v, v)])%list).
  { unfold add_positional; cbn [fst snd]. apply dset_new. apply dmem_false, dget_none.
    apply Hni. now left. }
  rewrite E, IH; auto.
  - rewrite <- app_assoc. reflexivity.
  - intros k1 H1. apply Hval. now right.
  - intros k1 v1 H1. unfold dkeys. rewrite map_app. intros H. apply in_app_or in H as [H|[H|[]]].
    + apply (Hni k1 v1); [now right | exact H].
    + cbn in H. apply Hk. assert (k = k1) as ->.
      { eapply key_of_inj; [| |exact H]; apply Hval; [now left|].
        right. change k1 with (fst (k1, v1)). now apply in_map. }
      change k1 with (fst (k1, v1)). now apply in_map.
Qed.

Lemma add_missing_list l : forall p0,
  NoDup (dkeys l) -> (forall k, In k (dkeys l) -> strip_id k = None) ->
  (forall k, In k (dkeys l) -> ~ In (k ++ "(id)") (dkeys p0)) ->
  fold_left add_missing l p0 =
  (p0 ++ stored (filter (fun kv => negb (dmem p0 (fst kv))) l))%list.
Proof.
  induction l as [|[k v] l IH]; intros p0 Hnd Hval Hni; cbn [fold_left filter stored map]; [now rewrite app_nil_r|].
  cbn [dkeys map fst] in Hnd. inversion Hnd as [|? ? Hk Hnd']; subst.
  unfold add_missing at 2; cbn [fst snd].
  destruct (dmem p0 k) eqn:Em; cbn [negb].
  - apply IH; auto; intros k1 H1; [apply Hval | apply Hni]; now right.
  - assert (E : dset p0 (key_of k v) v = (p0 ++ [(key_of k v, v)])%list).
    { apply dset_new. unfold key_of. destruct (is_object v); auto.
      apply dmem_false, dget_none, Hni. now left. }
    rewrite E, IH; auto.
    + cbn [stored map fst snd]. rewrite <- app_assoc. cbn [app]. do 2 f_equal.
      unfold stored. f_equal. apply filter_ext_in. intros [k1 v1] H1. cbn [fst]. f_equal.
      unfold dmem. rewrite dget_app. destruct (dget p0 k1); auto. cbn [dget].
      destruct (eqb_spec k1 (key_of k v)) as [Ek|]; auto. exfalso.
      assert (Hin1 : In k1 (dkeys l)) by (change k1 with (fst (k1, v1)); now apply in_map).
      assert (Hs1 : strip_id k1 = None) by (apply Hval; now right).
      unfold key_of in Ek. destruct (is_object v).
      * rewrite Ek, strip_id_app in Hs1. discriminate.
      * subst k1. auto.
    + intros k1 H1. apply Hval. now right.
    + intros k1 H1. unfold dkeys. rewrite map_app. intros H. apply in_app_or in H as [H|[H|[]]].
      * apply (Hni k1); [now right | exact H].
      * cbn in H. unfold key_of in H. destruct (is_object v).
        -- apply app_id_inj in H. subst. auto.
        -- symmetry in H. revert H. apply app_id_not_valid, Hval. now left.
Qed.

(** ** Binding *)
Lemma bind_params_shape ps : forall args kwargs bound,
  bind_params ps args kwargs = Ok bound ->
  dkeys bound = map p_name ps /\ (length args <= length ps)%nat /\
  (forall k, In k (firstn (length args) (map p_name ps)) -> dget kwargs k = None).
Proof.
  induction ps as [|p ps IH]; intros args kwargs bound H; cbn [bind_params] in H.
  - destruct args; [|discriminate]. injection H as <-. repeat split; auto. intros k [].
  - destruct args as [|a args].
    + destruct (dget kwargs (p_name p)) eqn:E; [|destruct (p_default p); [|discriminate]].
      all: destruct (bind_params ps [] kwargs) eqn:Eb; [|discriminate];
        injection H as <-; destruct (IH _ _ _ Eb) as (Hk & Hl & _); cbn [dkeys map fst];
        fold (dkeys a); rewrite Hk; repeat split; cbn; [lia | intros k []].
    + destruct (dmem kwargs (p_name p)) eqn:E; [discriminate|].
      destruct (bind_params ps args kwargs) as [r|] eqn:Eb; [|discriminate]. injection H as <-.
      destruct (IH _ _ _ Eb) as (Hk & Hl & Hd). cbn [dkeys map fst]. fold (dkeys r). rewrite Hk.
      repeat split; cbn; [lia|]. intros k [<-|Hin]; [now apply dmem_false | auto].
Qed.

Lemma dget_combine_firstn (names : list string) (args : list value) k :
  dget (combine names args) k = None <-> ~ In k (firstn (length args) names).
Proof.
  rewrite dget_none. unfold dkeys.
  assert (map fst (combine names args) = firstn (length args) names) as ->; [|tauto].
  revert args; induction names as [|n names IH]; intros [|a args]; cbn; auto. now rewrite IH.
Qed.

Lemma bind_params_get ps : forall args kwargs bound k,
  bind_params ps args kwargs = Ok bound -> NoDup (map p_name ps) ->
  dget bound k =
  match dget (combine (map p_name ps) args) k with
  | Some v => Some v
  | None => if existsb (String.eqb k) (map p_name ps)
            then match dget kwargs k with
                 | Some v => Some v
                 | None => dget (get_default_args ps) k
                 end
            else None
  end.
Proof.
  induction ps as [|p ps IH]; intros args kwargs bound k H Hnd; cbn [bind_params] in H.
  - destruct args; [|discriminate]. injection H as <-. reflexivity.
  - cbn [map] in Hnd. inversion Hnd as [|? ? Hni Hnd']; subst.
    assert (Hdef : forall q, q <> p_name p -> dget (get_default_args (p :: ps)) q = dget (get_default_args ps) q).
    { intros q Hq. cbn [get_default_args]. destruct (p_default p); auto. cbn [dget].
      destruct (eqb_spec q (p_name p)); congruence. }
    assert (Hdef0 : dget (get_default_args (p :: ps)) (p_name p) = p_default p).
    { cbn [get_default_args]. destruct (p_default p) as [d|]; [cbn [dget]; now rewrite eqb_refl|].
      apply dget_none. intros Hin. apply Hni. clear - Hin.
      induction ps as [|q ps IH]; cbn in *; [tauto|]. destruct (p_default q); cbn in Hin; tauto. }
    destruct args as [|a args].
    + assert (Hb : exists r v, bind_params ps [] kwargs = Ok r /\ bound = (p_name p, v) :: r /\
                (dget kwargs (p_name p) = Some v \/ (dget kwargs (p_name p) = None /\ p_default p = Some v))).
      { destruct (dget kwargs (p_name p)) eqn:E; [|destruct (p_default p) eqn:Ed; [|discriminate]];
          destruct (bind_params ps [] kwargs) eqn:Eb; try discriminate; injection H as <-; eauto 8. }
      destruct Hb as (r & v & Hr & -> & Hv). cbn [map combine]. cbn [dget existsb].
      change (eqb k (p_name p)) with (String.eqb k (p_name p)).
      destruct (String.eqb_spec k (p_name p)) as [->|Hk].
      * cbn [orb]. destruct Hv as [->|[-> Hv]]; auto. now rewrite Hdef0.
      * cbn [orb]. rewrite (IH _ _ _ k Hr Hnd'). rewrite Hdef by assumption.
        destruct (map p_name ps); reflexivity.
    + destruct (dmem kwargs (p_name p)) eqn:E; [discriminate|].
      destruct (bind_params ps args kwargs) as [r|] eqn:Eb; [|discriminate]. injection H as <-.
      cbn [map combine dget existsb]. change (eqb k (p_name p)) with (String.eqb k (p_name p)).
      destruct (String.eqb_spec k (p_name p)) as [->|Hk]; auto. cbn [orb].
      rewrite (IH _ _ _ k Eb Hnd'), Hdef by assumption. reflexivity.
Qed.

Lemma default_keys ps k : In k (dkeys (get_default_args ps)) -> In k (map p_name ps).
Proof.
  induction ps as [|p ps IH]; cbn; [tauto|]. destruct (p_default p); cbn; tauto.
Qed.
Lemma default_keys_nodup ps : NoDup (map p_name ps) -> NoDup (dkeys (get_default_args ps)).
Proof.
  induction ps as [|p ps IH]; cbn; intros H; [constructor|]. inversion H as [|? ? Hni Hnd]; subst.
  destruct (p_default p); cbn; [|auto]. constructor; auto. intros Hin. apply Hni. now apply default_keys.
Qed.
Lemma default_in ps k v : In (k, v) (get_default_args ps) ->
  exists p, In p ps /\ p_name p = k /\ p_default p = Some v.
Proof.
  induction ps as [|p ps IH]; cbn; [tauto|]. destruct (p_default p) eqn:E; cbn.
  - intros [H|H]; [injection H as <- <-; eauto | destruct (IH H) as (q & ? & ?); eauto].
  - intros H. destruct (IH H) as (q & ? & ?); eauto.
Qed.

Lemma combine_firstn_l {A B} (l1 l1' : list A) (l2 : list B) :
  (length l2 <= length l1)%nat -> combine (l1 ++ l1')%list l2 = combine l1 l2.
Proof.
  revert l2; induction l1 as [|a l1 IH]; intros [|b l2] H; cbn in *; auto; try lia.
  - now destruct l1'.
  - f_equal. apply IH. lia.
Qed.
Lemma combine_keys (names : list string) (args : list value) :
  dkeys (combine names args) = firstn (length args) names.
Proof. revert args; induction names as [|n names IH]; intros [|a args]; cbn; auto. f_equal. apply IH. Qed.
Lemma in_firstn {A} (l : list A) n x : In x (firstn n l) -> In x l.
Proof. rewrite <- (firstn_skipn n l) at 2. intros H. apply in_or_app. now left. Qed.
Lemma nodup_firstn {A} (l : list A) n : NoDup l -> NoDup (firstn n l).
Proof.
  revert n; induction l as [|a l IH]; intros [|n] H; cbn; try constructor.
  - inversion H as [|? ? Hni Hnd]; subst. intros Hin. apply Hni. eapply in_firstn; eauto.
  - inversion H; auto.
Qed.

(** The exact dictionary. *)
Definition explicit (s : sig) (args : list value) (kwargs : dict string value) : dict string value :=
  (combine (p_names s) args ++ kwargs)%list.

Lemma build_list id s args kwargs bound :
  valid_sig s -> NoDup (dkeys kwargs) -> bind_args s args kwargs = Ok bound ->
  let ex := explicit s args kwargs in
  NoDup (dkeys ex) /\ (forall k, In k (dkeys ex) -> In k (p_names s)) /\
  (forall k v, dget ex k = Some v -> dget bound k = Some v) /\
  (forall k, dget ex k = None -> dget bound k = dget (get_default_args (s_params s)) k) /\
  build_parameters id s args kwargs =
  (("id", VOid id) :: stored ex ++
     filter (fun kv => negb (dmem (("id", VOid id) :: stored ex) (fst kv)))
            (get_default_args (s_params s)))%list.
Proof.
  intros (Hnd & Hval & Hdef) Hkw Hb ex. unfold bind_args in Hb.
  destruct (forallb _ (dkeys kwargs)) eqn:Ef; [|discriminate].
  rewrite forallb_forall in Ef.
  assert (Hkin : forall k, In k (dkeys kwargs) -> In k (p_names s)).
  { intros k Hk. apply Ef in Hk. apply existsb_exists in Hk as (x & Hx & E).
    apply String.eqb_eq in E. now subst. }
  destruct (bind_params_shape _ _ _ _ Hb) as (Hbk & Hlen & Hdisj).
  fold (p_names s) in *.
  assert (Hexk : dkeys ex = (firstn (length args) (p_names s) ++ dkeys kwargs)%list).
  { unfold ex, explicit, dkeys. rewrite map_app. f_equal. apply combine_keys. }
  assert (Hexnd : NoDup (dkeys ex)).
  { rewrite Hexk.
    assert (Hd : forall x, In x (firstn (length args) (p_names s)) -> ~ In x (dkeys kwargs)).
    { intros x Hx. apply dget_none. auto. }
    clear - Hkw Hd Hnd. apply (nodup_firstn _ (length args)) in Hnd.
    induction (firstn (length args) (p_names s)) as [|a l IH]; cbn; auto.
    inversion Hnd as [|? ? Hni Hnd']; subst. constructor.
    - intros H. apply in_app_or in H as [H|H]; [auto | apply (Hd a); cbn; auto].
    - apply IH; auto. intros x Hx. apply Hd. now right. }
  assert (Hexin : forall k, In k (dkeys ex) -> In k (p_names s)).
  { intros k. rewrite Hexk. intros H. apply in_app_or in H as [H|H]; [eapply in_firstn; eauto | auto]. }
  assert (Hv : forall k, In k (p_names s) -> valid_name k).
  { intros k Hk. apply in_map_iff in Hk as (p & <- & Hp). auto. }
  assert (Hget : forall k, dget bound k = match dget ex k with Some v => Some v
                  | None => dget (get_default_args (s_params s)) k end).
  { intros k. rewrite (bind_params_get _ _ _ _ k Hb Hnd). unfold ex, explicit. rewrite dget_app.
    fold (p_names s). destruct (dget (combine (p_names s) args) k) eqn:E1; auto.
    destruct (existsb (String.eqb k) (p_names s)) eqn:E2.
    - reflexivity.
    - assert (Hn : ~ In k (p_names s)).
      { intros Hin. assert (existsb (String.eqb k) (p_names s) = true); [|congruence].
        apply existsb_exists. exists k. split; auto. apply String.eqb_refl. }
      assert (dget kwargs k = None) as -> by (apply dget_none; auto).
      symmetry. apply dget_none. intros H. apply Hn. now apply default_keys. }
  split; [exact Hexnd|]. split; [exact Hexin|].
  split; [intros k v E; now rewrite Hget, E|]. split; [intros k E; now rewrite Hget, E|].
  unfold build_parameters. rewrite combine_firstn_l by (unfold p_names; rewrite map_length; exact Hlen).
  assert (Hvk : forall k, In k (dkeys ex) -> strip_id k = None) by (intros k Hk; apply Hv, Hexin, Hk).
  assert (Hnoid : forall k, In k (dkeys ex) -> k <> "id") by (intros k Hk; apply Hv, Hexin, Hk).
  assert (Hck : forall k, In k (dkeys (combine (p_names s) args)) -> In k (dkeys ex)).
  { intros k Hk. unfold ex, explicit, dkeys. rewrite map_app. apply in_or_app. now left. }
  assert (Hkk : forall k, In k (dkeys kwargs) -> In k (dkeys ex)).
  { intros k Hk. unfold ex, explicit, dkeys. rewrite map_app. apply in_or_app. now right. }
  assert (E1 : fold_left add_positional (combine (p_names s) args) [("id", VOid id)] =
               (("id", VOid id) :: stored (combine (p_names s) args))%list).
  { rewrite add_positional_list; [reflexivity | | |].
    - rewrite combine_keys. now apply nodup_firstn.
    - auto.
    - intros k v Hin [H|[]]. cbn in H. symmetry in H. revert H.
      assert (In k (dkeys ex)) by (apply Hck; change k with (fst (k, v)); now apply in_map).
      apply key_of_neq_id; auto. }
  rewrite E1.
  assert (E2 : fold_left add_missing kwargs (("id", VOid id) :: stored (combine (p_names s) args)) =
               (("id", VOid id) :: stored ex)%list).
  { rewrite add_missing_list; auto.
    - assert (filter (fun kv => negb (dmem (("id", VOid id) :: stored (combine (p_names s) args)) (fst kv))) kwargs = kwargs) as ->.
      { assert (H : forall kv, In kv kwargs -> negb (dmem (("id", VOid id) :: stored (combine (p_names s) args)) (fst kv)) = true).
        { intros [k v] Hin. cbn [fst]. apply negb_true_iff, dmem_false, dget_none.
          assert (Hink : In k (dkeys kwargs)) by (change k with (fst (k, v)); now apply in_map).
          intros [H|H]; [cbn in H; apply (Hnoid k); auto|].
          apply stored_in in H as (k0 & v0 & Hin0 & Ek).
          assert (Hin0k : In k0 (dkeys (combine (p_names s) args))) by (change k0 with (fst (k0, v0)); now apply in_map).
          assert (k0 = k).
          { unfold key_of in Ek. destruct (is_object v0); [|auto].
            pose proof (Hvk k (Hkk _ Hink)) as Hs. rewrite Ek, strip_id_app in Hs. discriminate. }
          subst k0. rewrite combine_keys in Hin0k. apply Hdisj in Hin0k.
          apply dget_none in Hin0k. auto. }
        clear - H. induction kwargs as [|kv l IH]; cbn; auto. rewrite H by now left.
        f_equal. apply IH. intros kv' Hin. apply H. now right. }
      cbn [app]. f_equal. unfold ex, explicit. now rewrite stored_app.
    - intros k Hk [H|H]; [cbn in H; symmetry in H; now apply app_id_not_id in H|].
      apply stored_in in H as (k0 & v0 & Hin0 & Ek).
      assert (Hin0k : In k0 (dkeys (combine (p_names s) args))) by (change k0 with (fst (k0, v0)); now apply in_map).
      unfold key_of in Ek. destruct (is_object v0).
      + apply app_id_inj in Ek. subst k0. rewrite combine_keys in Hin0k. apply Hdisj in Hin0k.
        apply dget_none in Hin0k. auto.
      + revert Ek. apply app_id_not_valid. auto. }
  rewrite E2.
  (* defaults: not objects, so the key is the plain name *)
  assert (Hgen : forall l p0, NoDup (dkeys l) -> (forall kv, In kv l -> is_object (snd kv) = false) ->
            fold_left add_missing l p0 = (p0 ++ filter (fun kv => negb (dmem p0 (fst kv))) l)%list).
  { clear. induction l as [|[k v] l IH]; intros p0 Hnd Ho; cbn [fold_left filter]; [now rewrite app_nil_r|].
    cbn [dkeys map fst] in Hnd. inversion Hnd as [|? ? Hni Hnd']; subst.
    unfold add_missing at 2; cbn [fst snd].
    assert (key_of k v = k) as -> by (pose proof (Ho (k, v) (or_introl eq_refl)) as Hov; cbn in Hov; unfold key_of; now rewrite Hov).
    destruct (dmem p0 k) eqn:Em; cbn [negb].
    - apply IH; auto. intros kv H. apply Ho. now right.
    - rewrite dset_new by assumption. rewrite IH; auto; [|intros kv H; apply Ho; now right].
      rewrite <- app_assoc. cbn [app]. do 2 f_equal. apply filter_ext_in. intros [k1 v1] H1. cbn [fst].
      f_equal. unfold dmem. rewrite dget_app. destruct (dget p0 k1); auto. cbn [dget].
      destruct (eqb_spec k1 k) as [->|]; auto. exfalso. apply Hni. change k with (fst (k, v1)). now apply in_map. }
  rewrite Hgen; [reflexivity | now apply default_keys_nodup |].
  intros [k v] H. cbn [snd]. apply default_in in H as (p & Hp & _ & Hpd). eauto.
Qed.

(** Lookups in the recorded dictionary. *)
Lemma dget_stored_plain ex k :
  NoDup (dkeys ex) -> (forall k, In k (dkeys ex) -> strip_id k = None) -> strip_id k = None ->
  dget (stored ex) k = match dget ex k with
                       | Some v => if is_object v then None else Some v
                       | None => None end.
Proof.
  intros Hnd Hv Hk. induction ex as [|[k0 v0] ex IH]; cbn [stored map fst snd dget]; auto.
  cbn [dkeys map fst] in Hnd. inversion Hnd as [|? ? Hni Hnd']; subst.
  fold (stored ex). rewrite IH; auto; [|intros k1 H1; apply Hv; now right].
  unfold key_of. destruct (is_object v0) eqn:Eo.
  - destruct (eqb_spec k (k0 ++ "(id)")) as [E|_]; [rewrite E, strip_id_app in Hk; discriminate|].
    destruct (eqb_spec k k0) as [->|]; auto.
    assert (dget ex k0 = None) as -> by (now apply dget_none). now rewrite Eo.
  - destruct (eqb_spec k k0) as [->|]; auto. now rewrite Eo.
Qed.
Lemma dget_stored_id ex k :
  NoDup (dkeys ex) -> (forall k, In k (dkeys ex) -> strip_id k = None) ->
  dget (stored ex) (k ++ "(id)") = match dget ex k with
                       | Some v => if is_object v then Some v else None
                       | None => None end.
Proof.
  intros Hnd Hv. induction ex as [|[k0 v0] ex IH]; cbn [stored map fst snd dget]; auto.
  cbn [dkeys map fst] in Hnd. inversion Hnd as [|? ? Hni Hnd']; subst.
  fold (stored ex). rewrite IH; auto; [|intros k1 H1; apply Hv; now right].
  unfold key_of. destruct (is_object v0) eqn:Eo.
  - destruct (eqb_spec (k ++ "(id)") (k0 ++ "(id)")) as [E|Hne].
    + apply app_id_inj in E. subst. rewrite eqb_refl. now rewrite Eo.
    + destruct (eqb_spec k k0) as [->|]; [congruence | auto].
  - destruct (eqb_spec (k ++ "(id)") k0) as [E|_].
    + exfalso. revert E. apply app_id_not_valid, Hv. now left.
    + destruct (eqb_spec k k0) as [->|]; auto. rewrite Eo.
      assert (dget ex k0 = None) as -> by (now apply dget_none). reflexivity.
Qed.

Lemma dget_filter_missing (p0 l : dict string value) k :
  dmem p0 k = false ->
  dget (filter (fun kv => negb (dmem p0 (fst kv))) l) k = dget l k.
Proof.
  intros H. induction l as [|[k0 v0] l IH]; cbn [filter dget fst]; auto.
  destruct (dmem p0 k0) eqn:E; cbn [negb dget]; rewrite IH; auto.
  destruct (eqb_spec k k0) as [->|]; [congruence | auto].
Qed.
Lemma dget_filter_present (p0 l : dict string value) k :
  dmem p0 k = true ->
  dget (filter (fun kv => negb (dmem p0 (fst kv))) l) k = None.
Proof.
  intros H. induction l as [|[k0 v0] l IH]; cbn [filter dget fst]; auto.
  destruct (dmem p0 k0) eqn:E; cbn [negb dget]; rewrite ?IH; auto.
  destruct (eqb_spec k k0) as [->|]; [congruence | auto].
Qed.

(** Recorded dictionary, key by key, for every call Python accepts. *)
Lemma build_get id s args kwargs bound :
  valid_sig s -> NoDup (dkeys kwargs) -> bind_args s args kwargs = Ok bound ->
  let ex := explicit s args kwargs in
  let p := build_parameters id s args kwargs in
  dget p "id" = Some (VOid id) /\
  (forall k, In k (p_names s) ->
     dget p k = match dget ex k with
                | Some v => if is_object v then default_of s k else Some v
                | None => default_of s k end /\
     dget p (k ++ "(id)") = match dget ex k with
                | Some v => if is_object v then Some v else None
                | None => None end) /\
  (forall k, In k (dkeys p) -> k = "id" \/ In k (p_names s) \/
     exists k0, In k0 (p_names s) /\ k = k0 ++ "(id)").
Proof.
  intros Hs Hkw Hb ex p.
  destruct (build_list id s args kwargs bound Hs Hkw Hb) as (Hnd & Hin & Hg1 & Hg2 & Hp).
  fold ex in Hnd, Hin, Hg1, Hg2, Hp. fold p in Hp.
  destruct Hs as (Hpn & Hval & Hdef).
  assert (Hv : forall k, In k (p_names s) -> valid_name k).
  { intros k Hk. apply in_map_iff in Hk as (q & <- & Hq). auto. }
  assert (Hvk : forall k, In k (dkeys ex) -> strip_id k = None) by (intros k Hk; apply Hv, Hin, Hk).
  split; [rewrite Hp; cbn [dget]; now rewrite eqb_refl|]. split.
  - intros k Hk. destruct (Hv k Hk) as [Hkid Hks].
    assert (Hne1 : eqb k "id" = false) by now apply eqb_neq.
    assert (Hne2 : eqb (k ++ "(id)") "id" = false) by (apply eqb_neq, app_id_not_id).
    rewrite Hp. cbn [dget app]. rewrite Hne1, Hne2, !dget_app.
    rewrite dget_stored_plain, dget_stored_id by assumption.
    assert (Hm : dmem (("id", VOid id) :: stored ex) k =
                 match dget ex k with Some v => negb (is_object v) | None => false end).
    { unfold dmem. cbn [dget]. rewrite Hne1, dget_stored_plain by assumption.
      destruct (dget ex k) as [v|]; auto. now destruct (is_object v). }
    assert (Hfid : dget (filter (fun kv => negb (dmem (("id", VOid id) :: stored ex) (fst kv)))
                     (get_default_args (s_params s))) (k ++ "(id)") = None).
    { apply dget_none. intros H. apply in_map_iff in H as ([k0 v0] & E & H). cbn in E. subst k0.
      apply filter_In in H as [H _].
      assert (Hn : In (k ++ "(id)") (p_names s)).
      { apply default_keys. change (k ++ "(id)") with (fst (k ++ "(id)", v0)). now apply in_map. }
      apply Hv in Hn. destruct Hn as [_ Hn]. rewrite strip_id_app in Hn. discriminate. }
    unfold default_of.
    destruct (dget ex k) as [v|] eqn:E.
    + destruct (is_object v) eqn:Eo; cbn [negb] in Hm.
      * split; auto. now rewrite dget_filter_missing.
      * split; auto.
    + split; auto. now rewrite dget_filter_missing.
  - intros k Hk. rewrite Hp in Hk. cbn [dkeys map fst] in Hk. destruct Hk as [<-|Hk]; [now left|].
    right. rewrite map_app in Hk. apply in_app_or in Hk as [Hk|Hk].
    + fold (dkeys (stored ex)) in Hk. apply stored_in in Hk as (k0 & v0 & H0 & ->).
      assert (Hk0 : In k0 (p_names s)) by (apply Hin; change k0 with (fst (k0, v0)); now apply in_map).
      unfold key_of. destruct (is_object v0); [right; eauto | now left].
    + left. apply in_map_iff in Hk as ([k0 v0] & <- & H0). apply filter_In in H0 as [H0 _]. cbn.
      apply default_keys. change k0 with (fst (k0, v0)). now apply in_map.
Qed.

Lemma build_nodup id s args kwargs bound :
  valid_sig s -> NoDup (dkeys kwargs) -> bind_args s args kwargs = Ok bound ->
  NoDup (dkeys (build_parameters id s args kwargs)).
Proof.
  intros _ _ _. unfold build_parameters.
  assert (H1 : forall l p, NoDup (dkeys p) -> NoDup (dkeys (fold_left add_positional l p))).
  { induction l as [|kv l IH]; intros p Hp; cbn [fold_left]; auto. apply IH, dset_nodup, Hp. }
  assert (H2 : forall l p, NoDup (dkeys p) -> NoDup (dkeys (fold_left add_missing l p))).
  { induction l as [|kv l IH]; intros p Hp; cbn [fold_left]; auto. apply IH. unfold add_missing.
    destruct (dmem p (fst kv)); auto. now apply dset_nodup. }
  apply H2, H2, H1. repeat constructor. intros [].
Qed.

Lemma bind_in_names s args kwargs bound k :
  bind_args s args kwargs = Ok bound -> (In k (dkeys bound) <-> In k (p_names s)).
Proof.
  unfold bind_args. destruct (forallb _ _); [|discriminate]. intros H.
  destruct (bind_params_shape _ _ _ _ H) as (-> & _). reflexivity.
Qed.

(** C10 *)
Lemma record_exact id s args kwargs bound :
  valid_sig s -> NoDup (dkeys kwargs) -> bind_args s args kwargs = Ok bound ->
  (forall v, In v args -> is_object v = false) ->
  (forall k v, In (k, v) kwargs -> is_object v = false) ->
  let p := build_parameters id s args kwargs in
  NoDup (dkeys p) /\
  (forall k, In k (dkeys p) <-> k = "id" \/ In k (p_names s)) /\
  dget p "id" = Some (VOid id) /\
  (forall k, In k (p_names s) -> dget p k = dget bound k).
Proof.
  intros Hs Hkw Hb Ha Hk p.
  destruct (build_list id s args kwargs bound Hs Hkw Hb) as (Hnd & Hin & Hg1 & Hg2 & _).
  destruct (build_get id s args kwargs bound Hs Hkw Hb) as (Hid & Hget & Hkeys).
  fold p in Hid, Hget, Hkeys.
  assert (Hno : forall k v, dget (explicit s args kwargs) k = Some v -> is_object v = false).
  { intros k v H. apply dget_in in H. unfold explicit in H. apply in_app_or in H as [H|H]; [|eauto].
    apply in_combine_r in H. auto. }
  assert (Hgb : forall k, In k (p_names s) -> dget p k = dget bound k).
  { intros k Hkn. destruct (Hget k Hkn) as [-> _].
    destruct (dget (explicit s args kwargs) k) as [v|] eqn:E.
    - rewrite (Hno _ _ E). symmetry. auto.
    - symmetry. now apply Hg2. }
  split; [eapply build_nodup; eauto|]. split; [|split; auto].
  intros k. split.
  - intros H. destruct (Hkeys k H) as [->|[Hn|(k0 & Hk0 & ->)]]; auto. exfalso.
    destruct (Hget k0 Hk0) as [_ E]. apply dmem_in in H. unfold dmem in H. rewrite E in H.
    destruct (dget (explicit s args kwargs) k0) as [v|] eqn:Ee; [|discriminate].
    rewrite (Hno _ _ Ee) in H. discriminate.
  - intros [->|Hn].
    + apply dmem_in. unfold dmem. now rewrite Hid.
    + apply dmem_in. unfold dmem. rewrite (Hgb k Hn).
      apply (bind_in_names s args kwargs bound) in Hn; auto. apply dmem_in in Hn. exact Hn.
Qed.

(** ** Type check *)
Lemma search_bases_spec E d bases a v st :
  fst (search_bases E d bases a v st) = true <->
  fst st = true \/ exists b f, In b bases /\ conv_for E d b a = Some f.
Proof.
  unfold search_bases. revert st; induction bases as [|b bases IH]; intros st; cbn [fold_left].
  - split; [auto | intros [H|(b & f & [] & _)]; auto].
  - rewrite IH. destruct (conv_for E d b a) as [f|] eqn:E1; cbn [fst].
    + split; [intros _; right; exists b, f; split; auto; now left | auto].
    + split.
      * intros [H|(b' & f & Hin & H)]; auto. right. exists b', f. split; auto. now right.
      * intros [H|(b' & f & [<-|Hin] & H)]; auto; [congruence|]. right. exists b', f. auto.
Qed.

Lemma matches_belongs E v a : matches E (parameter_type E v) a = true <-> belongs E v a.
Proof.
  unfold matches, belongs. rewrite !orb_true_iff, !String.eqb_eq, existsb_exists. split.
  - intros [[H|[H|H]]|(x & Hx & H)]; auto. apply String.eqb_eq in H. subst. auto.
  - intros [H|[H|[H|H]]]; auto. right. exists a. split; auto. apply String.eqb_refl.
Qed.

Lemma check_types_spec E d v anns : forall st,
  (exists v', check_types E d anns v st = Ok v') <->
  fst st = true \/ acceptable E d anns v.
Proof.
  induction anns as [|a r IH]; intros st; cbn [check_types].
  - destruct (fst st); split; eauto.
    + intros (v' & H). discriminate.
    + intros [H|[(a & [] & _)|[(_ & H)|(a & b & f & [] & _)]]]; [discriminate | congruence].
  - destruct (matches E (parameter_type E v) a) eqn:Em.
    { split; [|eauto]. intros _. right. left. exists a. split; [now left | now apply matches_belongs]. }
    destruct (String.eqb_spec (parameter_type E v) "NoneType") as [En|En].
    { split; [|eauto]. intros _. right. right. left. split; auto. discriminate. }
    rewrite IH, search_bases_spec. unfold acceptable. split.
    + intros [[H|(b & f & Hb & Hf)]|[(a' & Ha & H)|[(H & _)|(a' & b & f & Ha & Hb & Hf)]]]; auto.
      * right. right. right. exists a, b, f. split; auto. now left.
      * right. left. exists a'. split; auto. now right.
      * right. right. right. exists a', b, f. split; auto. now right.
    + intros [H|[(a' & [<-|Ha] & H)|[(H & _)|(a' & b & f & [<-|Ha] & Hb & Hf)]]]; auto; try congruence.
      * apply matches_belongs in H. congruence.
      * right. left. exists a'. auto.
      * left. right. exists b, f. auto.
      * right. right. right. exists a', b, f. auto.
Qed.

Lemma check_types_result E d v all anns : forall l0 st v',
  all = (l0 ++ anns)%list -> (forall a, In a l0 -> ~ belongs E v a) ->
  ((snd st = v /\ forall a b, In a l0 -> In b (mro E (class_of v)) -> conv_for E d b a = None) \/
   exists a b f, tried E (Some all) v a /\ In b (mro E (class_of v)) /\ conv_for E d b a = Some f /\ snd st = VConv f v) ->
  check_types E d anns v st = Ok v' ->
  (v' = v /\ untouched E d (Some all) v) \/
  exists a b f, tried E (Some all) v a /\ In b (mro E (class_of v)) /\ conv_for E d b a = Some f /\ v' = VConv f v.
Proof.
  induction anns as [|a r IH]; intros l0 st v' Hall Hl0 Hst H; cbn [check_types] in H.
  - destruct (fst st); [|discriminate]. injection H as <-. destruct Hst as [[H1 H2]|H1]; [left; split; [exact H1|]|now right].
    right. intros a b (l1 & l2 & Ht & _) Hb. injection Ht as Ht. apply H2; [|exact Hb].
    rewrite app_nil_r in Hall. subst l0. rewrite Ht. apply in_or_app. right. now left.
  - destruct (matches _ _ _) eqn:Em.
    { injection H as <-. destruct Hst as [[H1 H2]|H1]; [left; split; [exact H1|]|now right].
      right. intros a' b (l1 & l2 & Ht & Hn) Hb. injection Ht as Ht. apply H2; [|exact Hb].
      rewrite Hall in Ht. apply app_eq_app in Ht as (l & [[E1 E2]|[E1 E2]]).
      - destruct l as [|x l]; cbn [app] in E2.
        + injection E2 as <- <-. exfalso. apply (Hn a'); [now left|]. now apply matches_belongs.
        + injection E2 as -> ->. rewrite E1. apply in_or_app. right. now left.
      - destruct l as [|x l]; cbn [app] in E2.
        + injection E2 as -> ->. exfalso. apply (Hn a'); [now left|]. now apply matches_belongs.
        + injection E2 as -> ->. exfalso. apply (Hn x); [right; rewrite E1; apply in_or_app; right; now left|]. now apply matches_belongs. }
    destruct (String.eqb _ _) eqn:En.
    { injection H as <-. destruct Hst as [[H1 H2]|H1]; [left; split; [exact H1|]|now right].
      left. now apply String.eqb_eq. }
    assert (Hna : ~ belongs E v a) by (intros Hb; apply matches_belongs in Hb; congruence).
    assert (Ht : tried E (Some all) v a).
    { exists l0, r. split; [now rewrite Hall|]. intros a' [<-|Ha]; auto. }
    eapply (IH (l0 ++ [a])%list); [now rewrite <- app_assoc| |  |exact H].
    { intros a' Ha. apply in_app_or in Ha as [Ha|[<-|[]]]; auto. }
    unfold search_bases.
    assert (Hgen : forall bases st done,
      (forall b, In b bases -> In b (mro E (class_of v))) -> (forall b, In b (mro E (class_of v)) -> In b done \/ In b bases) ->
      ((snd st = v /\ (forall a b, In a l0 -> In b (mro E (class_of v)) -> conv_for E d b a = None) /\
        (forall b, In b done -> conv_for E d b a = None)) \/
       exists a b f, tried E (Some all) v a /\ In b (mro E (class_of v)) /\ conv_for E d b a = Some f /\ snd st = VConv f v) ->
      let st' := fold_left (fun st b => match conv_for E d b a with Some f => (true, VConv f v) | None => st end) bases st in
      ((snd st' = v /\ forall a' b, In a' (l0 ++ [a])%list -> In b (mro E (class_of v)) -> conv_for E d b a' = None) \/
       exists a b f, tried E (Some all) v a /\ In b (mro E (class_of v)) /\ conv_for E d b a = Some f /\ snd st' = VConv f v)).
    { induction bases as [|b bases IHb]; intros st0 done Hb Hd H0; cbn [fold_left].
      - destruct H0 as [(H1 & H2 & H3)|H0]; [left|now right]. split; [exact H1|].
        intros a' b Ha Hb'. apply in_app_or in Ha as [Ha|[<-|[]]]; [now apply H2|]. apply H3. destruct (Hd b Hb') as [|[]]. assumption.
      - apply (IHb _ (b :: done)); [intros b' Hb'; apply Hb; now right| |].
        + intros b' Hb'. destruct (Hd b' Hb') as [H1|[<-|H1]]; [left; now right|left; now left|now right].
        + destruct (conv_for E d b a) as [f|] eqn:E1.
          * right. exists a, b, f. cbn [snd]. split; [exact Ht|]. split; auto. apply Hb. now left.
          * destruct H0 as [(H1 & H2 & H3)|H0]; [left|now right]. split; [exact H1|]. split; [exact H2|].
            intros b' [<-|Hb']; [exact E1|now apply H3]. }
    apply (Hgen _ _ []); auto. destruct Hst as [[H1 H2]|Hst]; [left|now right]. split; [exact H1|]. split; [exact H2|]. intros b [].
Qed.

Lemma check_types_error E d v anns st e : check_types E d anns v st = Err e -> e = ValueError.
Proof.
  revert st; induction anns as [|a r IH]; intros st H; cbn [check_types] in H.
  - destruct (fst st); congruence.
  - destruct (matches _ _ _); [discriminate|]. destruct (String.eqb _ _); [discriminate|]. eauto.
Qed.

Lemma check_parameters_ok E d ann p :
  (exists p', check_parameters E d ann p = Ok p') <->
  (forall k v anns, In (k, v) p -> dget ann k = Some anns -> acceptable E d anns v).
Proof.
  induction p as [|[k v] p IH]; cbn [check_parameters].
  - split; [intros _ k v anns [] | eauto].
  - split.
    + intros (p' & H).
      assert (Hv : exists v', match dget ann k with Some anns => check_types E d anns v (false, v) | None => Ok v end = Ok v').
      { destruct (match dget ann k with Some anns => check_types E d anns v (false, v) | None => Ok v end); [eauto|discriminate]. }
      assert (Hr : exists r', check_parameters E d ann p = Ok r').
      { destruct (match dget ann k with Some anns => check_types E d anns v (false, v) | None => Ok v end); [|discriminate].
        cbn [bind] in H. destruct (check_parameters E d ann p); [eauto|discriminate]. }
      rewrite IH in Hr. intros k1 v1 anns [E1|Hin] Ha; [|eauto].
      injection E1 as <- <-. rewrite Ha in Hv. apply check_types_spec in Hv as [Hv|Hv]; auto. discriminate.
    + intros H.
      assert (Hr : exists r', check_parameters E d ann p = Ok r').
      { apply IH. intros k1 v1 anns Hin Ha. eapply H; eauto. now right. }
      destruct Hr as (r' & ->).
      destruct (dget ann k) as [anns|] eqn:Ea; [|cbn; eauto].
      destruct (proj2 (check_types_spec E d v anns (false, v))) as (v' & Hv').
      { right. eapply H; eauto. now left. }
      rewrite Hv'. cbn. eauto.
Qed.
Lemma check_parameters_error E d ann p e : check_parameters E d ann p = Err e -> e = ValueError.
Proof.
  induction p as [|[k v] p IH]; cbn [check_parameters]; [discriminate|].
  destruct (dget ann k) as [anns|].
  - destruct (check_types E d anns v (false, v)) as [v'|e'] eqn:Ec; cbn [bind].
    + destruct (check_parameters E d ann p); cbn [bind]; [discriminate|]. intros H; injection H as <-; auto.
    + intros H. injection H as <-. eapply check_types_error; eauto.
  - cbn [bind]. destruct (check_parameters E d ann p); cbn [bind]; [discriminate|]. intros H; injection H as <-; auto.
Qed.

(** Keys are kept; each value is kept or wrapped in a delayed conversion. *)
Definition kept (E : cenv) (d : registry) (anns : option (list string)) (v v' : value) : Prop :=
  (v' = v /\ untouched E d anns v) \/
  exists a b f, tried E anns v a /\ In b (mro E (class_of v)) /\ conv_for E d b a = Some f /\ v' = VConv f v.
Lemma check_parameters_get E d ann p p' :
  check_parameters E d ann p = Ok p' ->
  dkeys p' = dkeys p /\
  forall k, match dget p k with
            | Some v => exists v', dget p' k = Some v' /\ kept E d (dget ann k) v v' /\ (dget ann k = None -> v' = v)
            | None => dget p' k = None end.
Proof.
  revert p'; induction p as [|[k v] p IH]; intros p' H; cbn [check_parameters] in H.
  - injection H as <-. split; [auto|]. intros k. reflexivity.
  - destruct (match dget ann k with Some anns => check_types E d anns v (false, v) | None => Ok v end) as [v'|] eqn:Ev; [|discriminate].
    cbn [bind] in H. destruct (check_parameters E d ann p) as [r'|] eqn:Er; [|discriminate]. injection H as <-.
    destruct (IH r' eq_refl) as [Hk Hg]. split; [cbn [dkeys map fst]; now f_equal|].
    intros k1. cbn [dget]. destruct (eqb_spec k1 k) as [->|]; [|apply Hg].
    exists v'. split; auto. destruct (dget ann k) as [anns|] eqn:Ea.
    + split; [|discriminate]. apply (check_types_result E d v anns anns [] (false, v)); [reflexivity|intros ? []|left; split; [reflexivity|intros ? ? []]|exact Ev].
    + injection Ev as <-. split; auto. left. split; [reflexivity|]. right. intros ? ? (? & ? & ? & _). discriminate.
Qed.

(** ** Resolution *)
Definition target (k : string) : string := match strip_id k with Some k' => k' | None => k end.

Lemma resolve1_other objs cls ap acc k v acc' q :
  resolve1 objs cls ap acc (k, v) = Ok acc' -> target k <> q -> dget acc' q = dget acc q.
Proof.
  unfold resolve1, target. intros H Hne. destruct (strip_id k) as [k'|].
  - assert (Hq : forall x, dget (dset acc k' x) q = dget acc q) by (intros x; apply dget_dset_other; auto).
    destruct v; try discriminate; destruct (dget objs z); try discriminate; injection H as <-; auto.
  - assert (Hq : forall x, dget (dset acc k x) q = dget acc q) by (intros x; apply dget_dset_other; auto).
    destruct v; try (injection H as <-; auto).
    + destruct (dget objs z); [injection H as <-; auto | discriminate].
    + destruct (ap f v); [cbn in H; injection H as <-; auto | discriminate].
Qed.
Lemma resolve_loop_other objs cls ap p : forall acc kw q,
  resolve_loop objs cls ap acc p = Ok kw -> (forall k, In k (dkeys p) -> target k <> q) ->
  dget kw q = dget acc q.
Proof.
  induction p as [|[k v] p IH]; intros acc kw q H Hne; cbn [resolve_loop] in H; [congruence|].
  destruct (resolve1 objs cls ap acc (k, v)) as [acc'|] eqn:E; [|discriminate]. cbn [bind] in H.
  rewrite (IH _ _ _ H) by (intros k1 H1; apply Hne; now right).
  eapply resolve1_other; [exact E|]. apply Hne. now left.
Qed.
Lemma resolve_loop_app objs cls ap p1 p2 : forall acc,
  resolve_loop objs cls ap acc (p1 ++ p2)%list =
  let* acc' := resolve_loop objs cls ap acc p1 in resolve_loop objs cls ap acc' p2.
Proof.
  induction p1 as [|kv p1 IH]; intros acc; cbn [resolve_loop app]; [reflexivity|].
  destruct (resolve1 objs cls ap acc kv); cbn [bind]; auto.
Qed.
Lemma resolve_loop_at objs cls ap p1 k v p2 kw :
  resolve_loop objs cls ap [] (p1 ++ (k, v) :: p2)%list = Ok kw ->
  (forall q, In q (dkeys p2) -> target q <> target k) ->
  exists acc acc', resolve1 objs cls ap acc (k, v) = Ok acc' /\ dget kw (target k) = dget acc' (target k).
Proof.
  rewrite resolve_loop_app. destruct (resolve_loop objs cls ap [] p1) as [acc|]; [|discriminate].
  cbn [bind resolve_loop]. destruct (resolve1 objs cls ap acc (k, v)) as [acc'|] eqn:E; [|discriminate].
  cbn [bind]. intros H Hne. exists acc, acc'. split; auto. eapply resolve_loop_other; eauto.
Qed.


Lemma ddel_cons_id v (l : dict string value) : ~ In "id" (dkeys l) -> ddel (("id", v) :: l) "id" = l.
Proof. intros H. cbn [ddel]. rewrite eqb_refl. apply ddel_notin. now apply dget_none. Qed.

Definition id_map (oidf : ref -> Z) (p : dict string value) : dict string value :=
  map (fun kv => (fst kv, id_value oidf (snd kv))) p.
Lemma id_map_keys oidf p : dkeys (id_map oidf p) = dkeys p.
Proof. unfold dkeys, id_map. rewrite map_map. apply map_ext. reflexivity. Qed.
Lemma id_map_get oidf p k : dget (id_map oidf p) k = option_map (id_value oidf) (dget p k).
Proof.
  induction p as [|[k0 v0] p IH]; cbn [id_map map fst snd dget]; auto. destruct (eqb k k0); auto.
Qed.

Lemma annotations_keys ps k : In k (dkeys (annotations ps)) -> In k (map p_name ps).
Proof. induction ps as [|p ps IH]; cbn; [tauto|]. destruct (p_ann p); cbn; tauto. Qed.
Lemma annotation_id s k : valid_sig s -> dget (annotations (s_params s)) (k ++ "(id)") = None.
Proof.
  intros (_ & Hv & _). apply dget_none. intros H. apply annotations_keys in H.
  apply in_map_iff in H as (p & E & Hp). destruct (Hv p Hp) as [_ Hs].
  rewrite E, strip_id_app in Hs. discriminate.
Qed.

(** What a parameter resolves to. *)
Definition resolved (objs : dict Z ref) (cls : ref -> string) (ap : func -> value -> res value)
  (v x : value) : Prop :=
  x = v \/ exists f, ap f v = Ok x.

(** One shape for the whole pipeline. *)
Lemma replay_shape E d id s args kwargs bound p oidf cid cn mn c :
  valid_sig s -> NoDup (dkeys kwargs) -> bind_args s args kwargs = Ok bound ->
  recorded_parameters E d id s args kwargs = Ok p ->
  mk_command oidf cid cn mn p = Ok c ->
  exists A B : dict string value,
    ddel (c_params c) "id" = (A ++ B)%list /\
    NoDup (dkeys (A ++ B)%list) /\
    dkeys A = dkeys (stored (explicit s args kwargs)) /\
    (forall k, In k (dkeys B) -> In k (p_names s)) /\
    (forall k, In k (dkeys B) -> ~ In k (dkeys A)) /\
    (forall k, k <> "id" -> match dget (build_parameters id s args kwargs) k with
              | Some v => exists v', dget (A ++ B)%list k = Some (id_value oidf v') /\ kept E d (dget (annotations (s_params s)) k) v v' /\
                            (dget (annotations (s_params s)) k = None -> v' = v)
              | None => dget (A ++ B)%list k = None end).
Proof.
  intros Hs Hkw Hb Hr Hc.
  destruct (build_list id s args kwargs bound Hs Hkw Hb) as (_ & Hin & _ & _ & Hp).
  pose proof (build_nodup id s args kwargs bound Hs Hkw Hb) as Hnd.
  unfold recorded_parameters in Hr. destruct (check_parameters_get _ _ _ _ _ Hr) as [Hk Hg].
  unfold mk_command in Hc. destruct (dmem p "id"); [|discriminate]. injection Hc as <-. cbn [c_params].
  fold (id_map oidf p).
  set (S := stored (explicit s args kwargs)) in *.
  set (D := filter (fun kv => negb (dmem (("id", VOid id) :: S) (fst kv))) (get_default_args (s_params s))) in *.
  rewrite Hp in Hk, Hnd. cbn [dkeys map fst] in Hk, Hnd.
  destruct p as [|[k0 x0] p]; [discriminate|]. cbn [dkeys map fst] in Hk.
  assert (Hk0 : k0 = "id") by congruence. subst k0.
  assert (Hkp : map fst p = map fst (S ++ D)%list) by congruence. clear Hk.
  inversion Hnd as [|? ? Hni Hnd']; subst.
  assert (Hdel : ddel (id_map oidf (("id", x0) :: p)) "id" = id_map oidf p).
  { cbn [id_map map fst snd]. apply ddel_cons_id. fold (id_map oidf p). rewrite id_map_keys.
    unfold dkeys. now rewrite Hkp. }
  rewrite Hdel. rewrite map_app in Hkp.
  assert (HL : id_map oidf p = (firstn (length S) (id_map oidf p) ++ skipn (length S) (id_map oidf p))%list)
    by (symmetry; apply firstn_skipn).
  assert (HkA : dkeys (firstn (length S) (id_map oidf p)) = dkeys S).
  { unfold dkeys. rewrite <- firstn_map. fold (dkeys (id_map oidf p)). rewrite id_map_keys.
    unfold dkeys. rewrite Hkp, firstn_app, map_length, Nat.sub_diag. cbn [firstn].
    rewrite app_nil_r. rewrite <- (map_length fst S). apply firstn_all. }
  assert (HkB : dkeys (skipn (length S) (id_map oidf p)) = dkeys D).
  { unfold dkeys. rewrite <- skipn_map. fold (dkeys (id_map oidf p)). rewrite id_map_keys.
    unfold dkeys. rewrite Hkp, skipn_app, map_length, Nat.sub_diag. cbn [skipn].
    rewrite <- (map_length fst S), skipn_all. reflexivity. }
  exists (firstn (length S) (id_map oidf p)), (skipn (length S) (id_map oidf p)).
  rewrite <- HL, HkA, HkB. repeat split.
  - rewrite id_map_keys. unfold dkeys. rewrite Hkp, <- map_app. exact Hnd'.
  - intros k HkD. apply in_map_iff in HkD as ([k1 v1] & <- & HkD). apply filter_In in HkD as [HkD _].
    apply default_keys. now apply in_map.
  - intros k HkD HkS. apply in_map_iff in HkD as ([k1 v1] & <- & HkD). apply filter_In in HkD as [_ HkD].
    cbn [fst] in *. apply negb_true_iff, dmem_false, dget_none in HkD. apply HkD. now right.
  - intros k Hkid. specialize (Hg k).
    assert (Hc : dget p k = dget (("id", x0) :: p) k).
    { cbn [dget]. assert (eqb k "id" = false) as -> by now apply eqb_neq. reflexivity. }
    destruct (dget (build_parameters id s args kwargs) k) as [v|].
    + destruct Hg as (v' & Hv' & Hkept & Hann). exists v'. rewrite id_map_get, Hc, Hv'. auto.
    + rewrite id_map_get, Hc, Hg. reflexivity.
Qed.

Lemma in_split_dict (L : dict string value) k v :
  dget L k = Some v -> exists l1 l2, L = (l1 ++ (k, v) :: l2)%list.
Proof. intros H. apply dget_in in H. apply in_split in H. exact H. Qed.

Lemma target_name k : strip_id k = None -> target k = k.
Proof. unfold target. now intros ->. Qed.
Lemma target_id k : target (k ++ "(id)") = k.
Proof. unfold target. now rewrite strip_id_app. Qed.
Lemma target_cases q k : target q = k -> q = k \/ q = k ++ "(id)".
Proof.
  unfold target. destruct (strip_id q) eqn:E; intros <-; [right; now apply strip_id_some | now left].
Qed.

(** Resolution of an entry whose target has no later rival. *)
Lemma resolve_entry objs cls ap L kw q v :
  resolve_loop objs cls ap [] L = Ok kw -> NoDup (dkeys L) -> dget L q = Some v ->
  (forall q', In q' (dkeys L) -> target q' = target q -> q' <> q -> False) ->
  exists acc acc', resolve1 objs cls ap acc (q, v) = Ok acc' /\ dget kw (target q) = dget acc' (target q).
Proof.
  intros H Hnd Hq Hun. destruct (in_split_dict _ _ _ Hq) as (l1 & l2 & ->).
  apply resolve_loop_at in H; auto. intros q' Hq' Et. apply (Hun q'); auto.
  - unfold dkeys. rewrite map_app. apply in_or_app. right. now right.
  - intros ->. unfold dkeys in Hnd. rewrite map_app in Hnd. cbn in Hnd.
    apply NoDup_remove_2 in Hnd. apply Hnd. apply in_or_app. now right.
Qed.

Lemma resolve1_plain objs cls ap acc k v acc' :
  strip_id k = None -> plain v = true ->
  resolve1 objs cls ap acc (k, v) = Ok acc' -> dget acc' k = Some v.
Proof.
  unfold resolve1. intros -> Hp H. destruct v; try discriminate; injection H as <-; apply dget_dset_same.
Qed.
Lemma resolve1_conv objs cls ap acc k f v acc' :
  strip_id k = None ->
  resolve1 objs cls ap acc (k, VConv f v) = Ok acc' -> exists x, ap f v = Ok x /\ dget acc' k = Some x.
Proof.
  unfold resolve1. intros -> H. destruct (ap f v) as [x|]; [|discriminate]. cbn in H. injection H as <-.
  exists x. split; auto. apply dget_dset_same.
Qed.
Lemma resolve1_id objs cls ap acc k z acc' :
  resolve1 objs cls ap acc (k ++ "(id)", VOid z) = Ok acc' ->
  exists r, dget objs z = Some r /\ dget acc' k = Some (VObj (cls r) r).
Proof.
  unfold resolve1. rewrite strip_id_app. destruct (dget objs z) as [r|]; [|discriminate].
  intros H. injection H as <-. exists r. split; auto. apply dget_dset_same.
Qed.

Lemma id_value_plain oidf v : is_object v = false -> id_value oidf v = v.
Proof. destruct v; auto; discriminate. Qed.
Lemma plain_not_object v : plain v = true -> is_object v = false.
Proof. destruct v; auto. Qed.

Lemma bound_explicit s args kwargs bound k v :
  valid_sig s -> NoDup (dkeys kwargs) -> bind_args s args kwargs = Ok bound ->
  dget bound k = Some v -> is_object v = true -> dget (explicit s args kwargs) k = Some v.
Proof.
  intros Hs Hkw Hb Hv Ho. destruct (build_list 0 s args kwargs bound Hs Hkw Hb) as (_ & _ & Hg1 & Hg2 & _).
  destruct (dget (explicit s args kwargs) k) as [w|] eqn:E.
  - apply Hg1 in E. congruence.
  - rewrite (Hg2 _ E) in Hv. apply dget_in, default_in in Hv as (p & Hp & _ & Hd).
    destruct Hs as (_ & _ & Hs). rewrite (Hs _ _ Hp Hd) in Ho. discriminate.
Qed.
Lemma bound_cases s args kwargs bound k v :
  valid_sig s -> NoDup (dkeys kwargs) -> bind_args s args kwargs = Ok bound ->
  dget bound k = Some v ->
  dget (explicit s args kwargs) k = Some v \/
  (dget (explicit s args kwargs) k = None /\ default_of s k = Some v).
Proof.
  intros Hs Hkw Hb Hv. destruct (build_list 0 s args kwargs bound Hs Hkw Hb) as (_ & _ & Hg1 & Hg2 & _).
  destruct (dget (explicit s args kwargs) k) as [w|] eqn:E.
  - apply Hg1 in E. left. congruence.
  - right. split; auto. rewrite <- Hv. symmetry. now apply Hg2.
Qed.

Section Replay.
  Context E d id s args kwargs bound p oidf cid cn mn c objs cls ap kw
    (Hs : valid_sig s) (Hkw : NoDup (dkeys kwargs)) (Hb : bind_args s args kwargs = Ok bound)
    (Hr : recorded_parameters E d id s args kwargs = Ok p)
    (Hc : mk_command oidf cid cn mn p = Ok c)
    (Hres : resolve objs cls ap (c_params c) = Ok kw).

  Lemma replay_object k cl r :
    dget bound k = Some (VObj cl r) -> default_of s k = None ->
    exists r', dget objs (oidf r) = Some r' /\ dget kw k = Some (VObj (cls r') r').
  Proof.
    intros Hv Hdef.
    destruct (replay_shape E d id s args kwargs bound p oidf cid cn mn c Hs Hkw Hb Hr Hc)
      as (A & B & HL & Hnd & HkA & HkB & Hdis & Hget).
    assert (Hkn : In k (p_names s)).
    { apply (bind_in_names s args kwargs bound); auto. apply dmem_in. unfold dmem. now rewrite Hv. }
    pose proof (bound_explicit _ _ _ _ _ _ Hs Hkw Hb Hv eq_refl) as Hex.
    destruct (build_get id s args kwargs bound Hs Hkw Hb) as (_ & Hbg & _).
    destruct (Hbg k Hkn) as [G1 G2]. rewrite Hex in G1, G2. cbn [is_object] in G1, G2.
    pose proof (Hget (k ++ "(id)") (app_id_not_id k)) as G3. rewrite G2 in G3.
    destruct G3 as (v' & Hv' & _ & Hann). rewrite (Hann (annotation_id s k Hs)) in Hv'. cbn [id_value] in Hv'.
    assert (Hkid : k <> "id").
    { destruct Hs as (_ & Hval & _). apply in_map_iff in Hkn as (q & <- & Hq). apply Hval, Hq. }
    pose proof (Hget k Hkid) as G4. rewrite G1, Hdef in G4.
    unfold resolve in Hres. rewrite HL in Hres.
    destruct (resolve_entry _ _ _ _ _ _ _ Hres Hnd Hv') as (acc & acc' & H1 & H2).
    { intros q' Hq' Et Hne. rewrite target_id in Et. apply target_cases in Et as [->| ->]; [|congruence].
      apply dget_none in G4. auto. }
    rewrite target_id in H2. apply resolve1_id in H1 as (r' & Hr' & Hg'). exists r'. split; congruence.
  Qed.

  Lemma replay_value k v :
    dget bound k = Some v -> plain v = true ->
    exists x, dget kw k = Some x /\ (x = v /\ untouched E d (dget (annotations (s_params s)) k) v \/ exists f, ap f v = Ok x /\
       exists a b, tried E (dget (annotations (s_params s)) k) v a /\ In b (mro E (class_of v)) /\ conv_for E d b a = Some f).
  Proof.
    intros Hv Hpl.
    destruct (replay_shape E d id s args kwargs bound p oidf cid cn mn c Hs Hkw Hb Hr Hc)
      as (A & B & HL & Hnd & HkA & HkB & Hdis & Hget).
    assert (Hkn : In k (p_names s)).
    { apply (bind_in_names s args kwargs bound); auto. apply dmem_in. unfold dmem. now rewrite Hv. }
    assert (Hkv : valid_name k).
    { destruct Hs as (_ & Hval & _). apply in_map_iff in Hkn as (q & <- & Hq). apply Hval, Hq. }
    destruct Hkv as [Hkid Hks].
    destruct (build_get id s args kwargs bound Hs Hkw Hb) as (_ & Hbg & _).
    destruct (Hbg k Hkn) as [G1 G2].
    assert (G1' : dget (build_parameters id s args kwargs) k = Some v /\
                  dget (build_parameters id s args kwargs) (k ++ "(id)") = None).
    { rewrite G1, G2. destruct (bound_cases _ _ _ _ _ _ Hs Hkw Hb Hv) as [Hex|[Hex Hd]]; rewrite Hex; auto.
      rewrite (plain_not_object v Hpl). auto. }
    destruct G1' as [G1' G2']. pose proof (Hget k Hkid) as G3. rewrite G1' in G3.
    destruct G3 as (v' & Hv' & Hkept & _).
    pose proof (Hget _ (app_id_not_id k)) as G4. rewrite G2' in G4.
    unfold resolve in Hres. rewrite HL in Hres.
    destruct (resolve_entry _ _ _ _ _ _ _ Hres Hnd Hv') as (acc & acc' & H1 & H2).
    { intros q' Hq' Et Hne. rewrite (target_name k Hks) in Et.
      apply target_cases in Et as [->| ->]; [congruence|]. apply dget_none in G4. auto. }
    rewrite (target_name k Hks) in H2.
    destruct Hkept as [[-> Hun]|(a & b & f & Htr & Hin & Hf & ->)].
    - rewrite id_value_plain in H1 by now apply plain_not_object.
      exists v. split; [rewrite H2; eapply resolve1_plain; eauto|]. left. auto.
    - cbn [id_value] in H1. apply resolve1_conv in H1 as (x & Hx & Hg'); auto.
      exists x. split; [congruence|]. right. exists f. split; [assumption|]. exists a, b. auto.
  Qed.

  (** With a default, the object is lost: the default is passed instead. *)
  Lemma replay_object_lost k cl r dv :
    dget bound k = Some (VObj cl r) -> default_of s k = Some dv -> plain dv = true ->
    exists x, dget kw k = Some x /\ (x = dv \/ exists f, ap f dv = Ok x).
  Proof.
    intros Hv Hdef Hpl.
    destruct (replay_shape E d id s args kwargs bound p oidf cid cn mn c Hs Hkw Hb Hr Hc)
      as (A & B & HL & Hnd & HkA & HkB & Hdis & Hget).
    assert (Hkn : In k (p_names s)).
    { apply (bind_in_names s args kwargs bound); auto. apply dmem_in. unfold dmem. now rewrite Hv. }
    assert (Hkv : valid_name k).
    { destruct Hs as (_ & Hval & _). apply in_map_iff in Hkn as (q & <- & Hq). apply Hval, Hq. }
    destruct Hkv as [Hkid Hks].
    pose proof (bound_explicit _ _ _ _ _ _ Hs Hkw Hb Hv eq_refl) as Hex.
    destruct (build_list id s args kwargs bound Hs Hkw Hb) as (Hexnd & Hexin & _ & _ & _).
    assert (Hvk : forall k, In k (dkeys (explicit s args kwargs)) -> strip_id k = None).
    { intros q Hq. apply Hexin in Hq. destruct Hs as (_ & Hval & _).
      apply in_map_iff in Hq as (q0 & <- & Hq). apply Hval, Hq. }
    destruct (build_get id s args kwargs bound Hs Hkw Hb) as (_ & Hbg & _).
    destruct (Hbg k Hkn) as [G1 G2]. rewrite Hex in G1, G2. cbn [is_object] in G1, G2. rewrite Hdef in G1.
    pose proof (Hget k Hkid) as G3. rewrite G1 in G3. destruct G3 as (v' & Hv' & Hkept & _).
    assert (HA : dget A k = None).
    { apply dget_none. rewrite HkA. apply dget_none. rewrite dget_stored_plain by assumption.
      rewrite Hex. reflexivity. }
    rewrite dget_app, HA in Hv'.
    destruct (in_split_dict _ _ _ Hv') as (l1 & l2 & ->).
    unfold resolve in Hres. rewrite HL in Hres. rewrite app_assoc in Hres.
    destruct (resolve_loop_at _ _ _ _ _ _ _ _ Hres) as (acc & acc' & H1 & H2).
    { intros q Hq Et. rewrite (target_name k Hks) in Et. apply target_cases in Et as [->| ->].
      - unfold dkeys in Hnd. rewrite app_assoc, map_app in Hnd. cbn in Hnd. apply NoDup_remove_2 in Hnd.
        apply Hnd. apply in_or_app. now right.
      - assert (Hn : In (k ++ "(id)") (p_names s)).
        { apply HkB. unfold dkeys. rewrite map_app. apply in_or_app. right. now right. }
        destruct Hs as (_ & Hval & _). apply in_map_iff in Hn as (q & Eq & Hq0).
        destruct (Hval q Hq0) as [_ Hn]. rewrite Eq, strip_id_app in Hn. discriminate. }
    rewrite (target_name k Hks) in H2.
    destruct Hkept as [[-> Hun]|(a & b & f & Htr & Hin & Hf & ->)].
    - rewrite id_value_plain in H1 by now apply plain_not_object.
      exists dv. split; auto. rewrite H2. eapply resolve1_plain; eauto.
    - cbn [id_value] in H1. apply resolve1_conv in H1 as (x & Hx & Hg'); auto.
      exists x. split; [congruence|]. right. eauto.
  Qed.

  Lemma replay_no_extra k : In k (dkeys kw) -> In k (p_names s).
  Proof.
    intros Hk.
    destruct (replay_shape E d id s args kwargs bound p oidf cid cn mn c Hs Hkw Hb Hr Hc)
      as (A & B & HL & Hnd & HkA & HkB & Hdis & Hget).
    destruct (build_list id s args kwargs bound Hs Hkw Hb) as (_ & Hexin & _).
    unfold resolve in Hres. rewrite HL in Hres.
    destruct (in_dec string_dec k (map target (dkeys (A ++ B)%list))) as [Hin|Hin].
    - apply in_map_iff in Hin as (q & <- & Hq). unfold dkeys in Hq. rewrite map_app in Hq.
      apply in_app_or in Hq as [Hq|Hq].
      + fold (dkeys A) in Hq. rewrite HkA in Hq. apply stored_in in Hq as (k0 & v0 & H0 & ->).
        assert (Hk0 : In k0 (p_names s)) by (apply Hexin; change k0 with (fst (k0, v0)); now apply in_map).
        assert (Hsk : strip_id k0 = None).
        { destruct Hs as (_ & Hval & _). apply in_map_iff in Hk0 as (q0 & <- & Hq0). apply Hval, Hq0. }
        unfold key_of. destruct (is_object v0); [now rewrite target_id | now rewrite target_name].
      + fold (dkeys B) in Hq. apply HkB in Hq.
        assert (Hsk : strip_id q = None).
        { destruct Hs as (_ & Hval & _). apply in_map_iff in Hq as (q0 & <- & Hq0). apply Hval, Hq0. }
        now rewrite target_name.
    - exfalso. apply dmem_in in Hk. unfold dmem in Hk.
      rewrite (resolve_loop_other _ _ _ _ _ _ k Hres) in Hk; [discriminate|].
      intros q Hq Et. apply Hin. apply in_map_iff. eauto.
  Qed.
End Replay.

(** ** Success of resolution *)
Definition entry_ok (objs : dict Z ref) (ap : func -> value -> res value) (kv : string * value) : Prop :=
  let '(k, v) := kv in
  match strip_id k, v with
  | Some _, (VOid z | VInt z) => dget objs z <> None
  | Some _, _ => False
  | None, VOid z => dget objs z <> None
  | None, VConv f w => exists x, ap f w = Ok x
  | None, _ => True
  end.
Lemma resolve1_ok objs cls ap acc kv :
  (exists acc', resolve1 objs cls ap acc kv = Ok acc') <-> entry_ok objs ap kv.
Proof.
  destruct kv as [k v]. unfold resolve1, entry_ok.
  assert (G : forall A (e : exn), (exists x : A, @Err A e = Ok x) <-> False)
    by (intros; split; [intros (x & H); discriminate | tauto]).
  assert (T : forall A (y : A), (exists x, Ok y = Ok x) <-> True) by (intros; split; eauto).
  assert (Z : forall z A (y : ref -> A) e, (exists x, match dget objs z with Some r => Ok (y r) | None => Err e end = Ok x) <-> dget objs z <> None).
  { intros z A y e. destruct (dget objs z); split; eauto; try (intros (x & H); discriminate); congruence. }
  destruct (strip_id k); destruct v; auto; try apply G; try apply T; try apply Z.
  destruct (ap f v) as [x|e]; cbn [bind]; split; eauto; intros (y & H); discriminate.
Qed.
Lemma resolve_loop_ok objs cls ap p : forall acc,
  (exists kw, resolve_loop objs cls ap acc p = Ok kw) <-> (forall kv, In kv p -> entry_ok objs ap kv).
Proof.
  induction p as [|kv p IH]; intros acc; cbn [resolve_loop].
  - split; [intros _ kv [] | eauto].
  - split.
    + intros (kw & H). destruct (resolve1 objs cls ap acc kv) as [acc'|] eqn:E; [|discriminate].
      cbn [bind] in H. intros kv' [<-|Hin]; [apply (resolve1_ok _ cls _ acc); eauto|].
      apply (proj1 (IH acc')); eauto.
    + intros H. destruct (proj2 (resolve1_ok objs cls ap acc kv)) as (acc' & ->); [apply H; now left|].
      cbn [bind]. apply IH. intros kv' Hin. apply H. now right.
Qed.

Lemma replay_succeeds E d id s args kwargs bound p oidf cid cn mn c objs cls ap :
  valid_sig s -> NoDup (dkeys kwargs) -> bind_args s args kwargs = Ok bound ->
  recorded_parameters E d id s args kwargs = Ok p ->
  mk_command oidf cid cn mn p = Ok c ->
  (forall k v, dget bound k = Some v -> plain v = true \/ exists cl r, v = VObj cl r /\ dget objs (oidf r) <> None) ->
  (forall k v, default_of s k = Some v -> plain v = true) ->
  (forall f v, exists x, ap f v = Ok x) ->
  exists kw, resolve objs cls ap (c_params c) = Ok kw.
Proof.
  intros Hs Hkw Hb Hr Hc Hobj Hdp Hap.
  destruct (replay_shape E d id s args kwargs bound p oidf cid cn mn c Hs Hkw Hb Hr Hc)
    as (A & B & HL & Hnd & HkA & HkB & Hdis & Hget).
  unfold resolve. rewrite HL. apply resolve_loop_ok. intros [k v] Hin.
  destruct (build_list id s args kwargs bound Hs Hkw Hb) as (Hexnd & Hexin & Hg1 & _ & _).
  destruct (build_get id s args kwargs bound Hs Hkw Hb) as (_ & Hbg & Hbk).
  assert (HinL : In k (dkeys (A ++ B)%list)) by (change k with (fst (k, v)); now apply in_map).
  assert (Hkid : k <> "id").
  { intros ->. rewrite <- HL in HinL. apply dmem_in in HinL. unfold dmem in HinL.
    rewrite dget_ddel, eqb_refl in HinL. discriminate. }
  assert (HgL : dget (A ++ B)%list k = Some v) by (now apply dget_nodup_in).
  pose proof (Hget k Hkid) as G.
  destruct (dget (build_parameters id s args kwargs) k) as [w|] eqn:Ew; [|congruence].
  destruct G as (v' & Hv' & Hkept & Hann). assert (v = id_value oidf v') by congruence. subst v.
  assert (Hcase : In k (p_names s) \/ exists k0, In k0 (p_names s) /\ k = k0 ++ "(id)").
  { destruct (Hbk k) as [?|?]; [apply dmem_in; unfold dmem; now rewrite Ew | congruence | auto]. }
  destruct Hcase as [Hkn|(k0 & Hk0 & ->)].
  - assert (Hks : strip_id k = None).
    { destruct Hs as (_ & Hval & _). apply in_map_iff in Hkn as (q0 & <- & Hq0). apply Hval, Hq0. }
    assert (Hpl : plain w = true).
    { destruct (Hbg k Hkn) as [G1 _]. rewrite Ew in G1.
      destruct (dget (explicit s args kwargs) k) as [u|] eqn:Eu; [|symmetry in G1; eauto].
      destruct (is_object u) eqn:Eo; [symmetry in G1; eauto|].
      injection G1 as ->. destruct (Hobj k u (Hg1 _ _ Eu)) as [|(cl & r & -> & _)]; auto; try discriminate. }
    unfold entry_ok. rewrite Hks. destruct Hkept as [[-> _]|(a & b & f & _ & _ & _ & ->)].
    + rewrite id_value_plain by now apply plain_not_object. destruct w; auto; discriminate.
    + cbn [id_value]. apply Hap.
  - destruct (Hbg k0 Hk0) as [_ G2]. rewrite Ew in G2.
    destruct (dget (explicit s args kwargs) k0) as [u|] eqn:Eu; [|discriminate].
    destruct (is_object u) eqn:Eo; [|discriminate]. injection G2 as ->.
    rewrite (Hann (annotation_id s k0 Hs)) in *.
    destruct (Hobj k0 u (Hg1 _ _ Eu)) as [Hp|(cl & r & -> & Ho)].
    + destruct u; discriminate.
    + unfold entry_ok. rewrite strip_id_app. exact Ho.
Qed.

(** ** C12 *)
Lemma accept_iff E d id s args kwargs bound :
  valid_sig s -> NoDup (dkeys kwargs) -> bind_args s args kwargs = Ok bound ->
  (exists p, recorded_parameters E d id s args kwargs = Ok p) <->
  (forall k anns v, dget (annotations (s_params s)) k = Some anns ->
     checked_value s bound k = Some v -> acceptable E d anns v).
Proof.
  intros Hs Hkw Hb. unfold recorded_parameters. rewrite check_parameters_ok.
  pose proof (build_nodup id s args kwargs bound Hs Hkw Hb) as Hnd.
  destruct (build_get id s args kwargs bound Hs Hkw Hb) as (_ & Hbg & Hbk).
  assert (Hcv : forall k, In k (p_names s) -> dget (build_parameters id s args kwargs) k = checked_value s bound k).
  { intros k Hk. destruct (Hbg k Hk) as [-> _]. unfold checked_value.
    pose proof Hk as Hk'. apply (bind_in_names s args kwargs bound) in Hk'; auto.
    apply dmem_in in Hk'. unfold dmem in Hk'. destruct (dget bound k) as [v|] eqn:Ev; [|discriminate].
    destruct (bound_cases _ _ _ _ _ _ Hs Hkw Hb Ev) as [->|[-> Hd]]; auto.
    destruct (is_object v) eqn:Eo; auto. }
  assert (Hak : forall k anns, dget (annotations (s_params s)) k = Some anns -> In k (p_names s)).
  { intros k anns Ha. apply annotations_keys, dmem_in. unfold dmem. now rewrite Ha. }
  split.
  - intros H k anns v Ha Hv. eapply H; [|exact Ha]. apply dget_in. rewrite Hcv; eauto.
  - intros H k v anns Hin Ha. eapply H; [exact Ha|]. rewrite <- Hcv by eauto. now apply dget_nodup_in.
Qed.

(** A value of the first annotated type that applies, with no converter to an
    earlier one, is recorded as it is. *)
Lemma check_types_keeps E d v pre a post : 
  belongs E v a ->
  (forall a' b, In a' pre -> In b (mro E (class_of v)) -> conv_for E d b a' = None) ->
  check_types E d (pre ++ a :: post)%list v (false, v) = Ok v.
Proof.
  intros Hm. apply matches_belongs in Hm. assert (G : forall st, snd st = v ->
    (forall a' b, In a' pre -> In b (mro E (class_of v)) -> conv_for E d b a' = None) ->
    check_types E d (pre ++ a :: post)%list v st = Ok v).
  { induction pre as [|a0 pre IH]; intros st Hst Hno; cbn [check_types app].
    - rewrite Hm. now rewrite Hst.
    - destruct (matches E (parameter_type E v) a0); [now rewrite Hst|].
      destruct (String.eqb _ _); [now rewrite Hst|].
      assert (search_bases E d (mro E (class_of v)) a0 v st = st) as ->.
      { unfold search_bases. assert (Hn : forall b, In b (mro E (class_of v)) -> conv_for E d b a0 = None)
          by (intros b Hb; apply Hno; auto; now left). clear - Hn.
        induction (mro E (class_of v)) as [|b l IH]; cbn [fold_left]; auto.
        rewrite (Hn b) by now left. apply IH. intros b' Hb'. apply Hn. now right. }
      apply IH; auto. intros a' b Ha'. apply Hno. now right. }
  intros H. now apply G.
Qed.

(** Witnesses *)
Definition E0 : cenv := mkE (fun c => [c; "object"]) (fun _ => "object") (fun _ => ["object"]).
Definition sig_default : sig := mkS [mkP "colormap" (Some VNone) None] [].
Definition sig_plain : sig := mkS [mkP "other" None None] [].

Lemma object_default_lost_witness :
  exists s args kwargs bound p c kw,
    valid_sig s /\ NoDup (dkeys kwargs) /\ bind_args s args kwargs = Ok bound /\
    recorded_parameters E0 [] 1 s args kwargs = Ok p /\ mk_command Z.of_nat 1 "Transform" "set_x" p = Ok c /\
    resolve [(7%Z, 7%nat)] (fun _ => "Colormap") (fun _ v => Ok v) (c_params c) = Ok kw /\
    dget bound "colormap" = Some (VObj "Colormap" 7%nat) /\ dget kw "colormap" = Some VNone.
Proof.
  exists sig_default, [VObj "Colormap" 7%nat], []. do 4 eexists.
  split. { split; [|split].
    - repeat constructor. intros [].
    - intros p [<-|[]]. split; [discriminate | reflexivity].
    - intros p d [<-|[]] H. now injection H as <-. }
  split; [constructor|]. repeat split; try reflexivity.
Qed.
Lemma oid_dropped_witness :
  exists s args kwargs bound p c,
    valid_sig s /\ NoDup (dkeys kwargs) /\ bind_args s args kwargs = Ok bound /\
    recorded_parameters E0 [] 1 s args kwargs = Ok p /\ mk_command Z.of_nat 1 "Foo" "bar" p = Ok c /\
    dget bound "other" = Some (VOid 7) /\
    resolve [(7%Z, 7%nat)] (fun _ => "Foo") (fun _ v => Ok v) (c_params c) = Ok [].
Proof.
  exists sig_plain, [VOid 7], []. do 3 eexists.
  split. { split; [|split].
    - repeat constructor. intros [].
    - intros p [<-|[]]. split; [discriminate | reflexivity].
    - intros p d [<-|[]] H. discriminate. }
  split; [constructor|]. repeat split; try reflexivity.
Qed.
Lemma matching_converted_witness :
  exists d anns v a, In a anns /\ belongs E0 v a /\
    check_types E0 d anns v (false, v) = Ok (VConv 3%nat v).
Proof.
  exists [(("list", "Buffer"), 3%nat)], ["Buffer"; "list"], (VSeq [VInt 1]), "list".
  split; [right; now left | split; [now left | reflexivity]].
Qed.
Lemma object_unchecked_witness :
  exists s args p, dget (annotations (s_params s)) "size" = Some ["float"] /\
    bind_args s args [] = Ok [("size", VObj "Canvas" 4%nat)] /\
    ~ acceptable E0 [] ["float"] (VObj "Canvas" 4%nat) /\
    recorded_parameters E0 [] 1 s args [] = Ok p.
Proof.
  exists (mkS [mkP "size" None (Some ["float"])] []), [VObj "Canvas" 4%nat]. eexists.
  split; [reflexivity|]. split; [reflexivity|]. split; [|reflexivity].
  intros [(a & [<-|[]] & H)|[(H & _)|(a & b & f & [<-|[]] & [<-|[<-|[]]] & H)]]; try discriminate.
  apply matches_belongs in H. discriminate.
Qed.
