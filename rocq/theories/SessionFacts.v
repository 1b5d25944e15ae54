(** Proofs about Session.v. *)
From Verif Require Import Base Registry RegistryFacts Convert Command CommandSpec CommandFacts
  Queue QueueSpec QueueFacts Base64 Execute Json JsonSpec JsonFacts Session SessionSpec.
Open Scope string_scope.

(** ** Arguments through the file *)
Section Args.
  Context (txt : string -> Z -> option jval) (pure : func -> value -> res value).

  (** The key under which a recorded value is written. *)
  Definition skey (k : string) (v : value) : string :=
    match v with
    | VConv f u => match pure f u with Ok (VObj _ _) => k ++ "(id)" | _ => k end
    | _ => k
    end.
  (** From a recorded value to the loaded one. *)
  Definition wired (oidf oidf' : ref -> Z) (v w : value) : Prop :=
    match v with
    | VObj _ r => w = VInt (oidf r)
    | VConv f u => exists x, pure f u = Ok x /\
        match x with VObj _ r => w = VInt (oidf' r) | _ => exists j, encode txt oidf' x = Ok j /\ w = decode j end
    | _ => exists j, encode txt oidf' v = Ok j /\ w = decode j
    end.

  Lemma same_params oidf oidf' (p P' : dict string value) :
    Forall2 (fun kv kv' => exists x j, saved1 pure oidf' kv = Ok (fst kv', x) /\
               encode txt oidf' x = Ok j /\ snd kv' = decode j) (id_map oidf p) P' ->
    Forall2 (fun kv kv' => fst kv' = skey (fst kv) (snd kv) /\ wired oidf oidf' (snd kv) (snd kv')) p P'.
  Proof.
    revert P'. induction p as [|[k v] p IH]; intros P' H; cbn [id_map map fst snd] in H;
      inversion H as [|? [k' w] ? P1 (x & j & H1 & H2 & H3) HF]; subst; constructor.
    - cbn [fst snd] in *.
      unfold saved1 in H1. cbn [fst snd] in H1.
      destruct v; cbn [id_value] in *; cbn [bind] in H1;
        try (injection H1 as <- <-; split; [reflexivity|]; cbn [wired]; eauto; fail).
      + injection H1 as <- <-. split; [reflexivity|]. cbn [encode] in H2. injection H2 as <-. exact H3.
      + cbn [skey wired]. destruct (pure f v) as [y|e]; cbn [bind] in H1; [|discriminate].
        destruct y; injection H1 as <- <-; (split; [reflexivity|]); eexists; (split; [reflexivity|]); cbv beta iota; eauto.
        cbn [encode] in H2. injection H2 as <-. exact H3.
    - apply IH; auto.
  Qed.

  (** Keys written under another name are not names of other entries. *)
  Definition apart (p : dict string value) : Prop :=
    forall k v, In (k, v) p -> skey k v <> k -> ~ In (skey k v) (dkeys p).
  Lemma skey_cases k v : skey k v = k \/ skey k v = k ++ "(id)".
  Proof. destruct v; cbn [skey]; auto. destruct (pure f v) as [[]|]; auto. Qed.
  Lemma skey_inj p k v k' v' : apart p -> In (k, v) p -> In (k', v') p -> skey k v = skey k' v' -> k = k'.
  Proof.
    intros A H H' Eq. destruct (String.eqb_spec (skey k v) k) as [E1|E1], (String.eqb_spec (skey k' v') k') as [E2|E2].
    - congruence.
    - exfalso. apply (A k' v' H' E2). rewrite <- Eq, E1. apply in_map_iff. exists (k, v). auto.
    - exfalso. apply (A k v H E1). rewrite Eq, E2. apply in_map_iff. exists (k', v'). auto.
    - destruct (skey_cases k v) as [|F1]; [contradiction|]. destruct (skey_cases k' v') as [|F2]; [contradiction|].
      rewrite F1, F2 in Eq. now apply app_id_inj in Eq.
  Qed.
  Lemma skeys_nodup p : NoDup (dkeys p) -> apart p -> NoDup (map (fun kv => skey (fst kv) (snd kv)) p).
  Proof.
    intros Np A. assert (G : forall l, incl l p -> NoDup (dkeys l) -> NoDup (map (fun kv => skey (fst kv) (snd kv)) l)).
    { induction l as [|[k v] l IH]; intros I Nl; [constructor|]. cbn [map fst snd dkeys] in *. inversion Nl as [|? ? N1 N2]; subst.
      constructor; [|apply IH; [intros y Hy; apply I; now right|exact N2]].
      intros Hin. apply in_map_iff in Hin as ([k' v'] & Eq & Hin). cbn [fst snd] in Eq.
      assert (k' = k) as -> by (apply (skey_inj p k' v' k v); auto; apply I; [now right|now left]).
      apply N1. apply in_map_iff. exists (k, v'). auto. }
    apply G; [apply incl_refl|exact Np].
  Qed.
  Lemma same_params_get oidf oidf' p P' : NoDup (dkeys p) -> apart p ->
    Forall2 (fun kv kv' => fst kv' = skey (fst kv) (snd kv) /\ wired oidf oidf' (snd kv) (snd kv')) p P' ->
    NoDup (dkeys P') /\
    (forall k v, dget p k = Some v -> exists w, dget P' (skey k v) = Some w /\ wired oidf oidf' v w) /\
    (forall q w, dget P' q = Some w -> exists k v, dget p k = Some v /\ q = skey k v /\ wired oidf oidf' v w).
  Proof.
    intros Np A HF.
    assert (K : dkeys P' = map (fun kv => skey (fst kv) (snd kv)) p).
    { clear - HF. induction HF as [|kv kv' p P' [H _] HF IH]; [reflexivity|]. unfold dkeys in *. cbn [map]. now rewrite H, IH. }
    assert (N : NoDup (dkeys P')) by (rewrite K; now apply skeys_nodup).
    split; [exact N|].
    assert (F : forall k v, In (k, v) p -> exists w, In (skey k v, w) P' /\ wired oidf oidf' v w).
    { clear - HF. induction HF as [|[k0 v0] [k' w'] p P' [H H2] HF IH]; intros k v []; cbn [fst snd] in *.
      - injection H0 as -> ->. subst k'. exists w'. split; [now left|exact H2].
      - destruct (IH k v H0) as (w & W1 & W2). exists w. split; [now right|exact W2]. }
    assert (G : forall q w, In (q, w) P' -> exists k v, In (k, v) p /\ q = skey k v /\ wired oidf oidf' v w).
    { clear - HF. induction HF as [|[k0 v0] [k' w'] p P' [H H2] HF IH]; intros q w []; cbn [fst snd] in *.
      - injection H0 as -> ->. exists k0, v0. split; [now left|auto].
      - destruct (IH q w H0) as (k & v & W1 & W2). exists k, v. split; [now right|exact W2]. }
    split.
    - intros k v H. apply dget_in in H. destruct (F k v H) as (w & W1 & W2). exists w. split; [|exact W2]. now apply dget_nodup_in.
    - intros q w H. apply dget_in in H. destruct (G q w H) as (k & v & W1 & W2). exists k, v. split; [|exact W2]. now apply dget_nodup_in.
  Qed.

  Lemma wired_plain oidf oidf' v w : wired oidf oidf' v w ->
    (forall z, w <> VOid z) /\ (forall f u, w <> VConv f u).
  Proof.
    assert (G : forall j, (forall z, decode j <> VOid z) /\ (forall f u, decode j <> VConv f u))
      by (intros [| | | |]; cbn; split; discriminate).
    intros H. destruct v; cbn [wired] in H; try (destruct H as (j & _ & ->); apply G).
    - subst w. split; discriminate.
    - destruct H as (x & _ & H). destruct x; try (destruct H as (j & _ & ->); apply G). subst w. split; discriminate.
  Qed.

  Lemma resolve_loop_total objs cls ap (L : dict string value) : forall acc,
    (forall k v, In (k, v) L -> match strip_id k with
       | Some _ => exists z R, v = VInt z /\ dget objs z = Some R
       | None => (forall z, v <> VOid z) /\ (forall f u, v <> VConv f u) end) ->
    exists kw, resolve_loop objs cls ap acc L = Ok kw.
  Proof.
    induction L as [|[k v] L IH]; intros acc H; cbn [resolve_loop]; [eauto|].
    assert (H1 : exists acc', resolve1 objs cls ap acc (k, v) = Ok acc').
    { specialize (H k v (or_introl eq_refl)). unfold resolve1. destruct (strip_id k).
      - destruct H as (z & R & -> & ->). eauto.
      - destruct H as [H1 H2]. destruct v; eauto; [exfalso; eapply H1; reflexivity | exfalso; eapply H2; reflexivity]. }
    destruct H1 as (acc' & ->). cbn [bind]. apply IH. intros k0 v0 Hin. apply H. now right.
  Qed.

  (** The entries recorded for a call. *)
  Lemma recorded_shape E d id s args kwargs bound p :
    valid_sig s -> NoDup (dkeys kwargs) -> bind_args s args kwargs = Ok bound ->
    recorded_parameters E d id s args kwargs = Ok p ->
    (forall k v, dget bound k = Some v -> plain v = true \/ exists cl r, v = VObj cl r /\ default_of s k = None) ->
    NoDup (dkeys p) /\ dget p "id" = Some (VOid id) /\
    (forall k cl r, In k (p_names s) -> dget bound k = Some (VObj cl r) ->
       dget p k = None /\ dget p (k ++ "(id)") = Some (VObj cl r)) /\
    (forall k v, In k (p_names s) -> dget bound k = Some v -> plain v = true ->
       dget p (k ++ "(id)") = None /\ exists v', dget p k = Some v' /\ kept E d (dget (annotations (s_params s)) k) v v') /\
    (forall q v, dget p q = Some v -> q = "id" /\ v = VOid id \/
              (exists k cl r, In k (p_names s) /\ q = k ++ "(id)" /\ dget bound k = Some (VObj cl r) /\ v = VObj cl r) \/
              (exists v0, In q (p_names s) /\ dget bound q = Some v0 /\ plain v0 = true /\ kept E d (dget (annotations (s_params s)) q) v0 v)) /\
    (forall q v, dget p q = Some v -> skey q v <> q -> skey q v = q ++ "(id)" /\ In q (p_names s) /\ dget p (q ++ "(id)") = None) /\
    apart p.
  Proof.
    intros Hs Hkw Hb Hr Hbound.
    destruct (build_list id s args kwargs bound Hs Hkw Hb) as (_ & _ & Hg1 & Hg2 & _).
    destruct (build_get id s args kwargs bound Hs Hkw Hb) as (Gid & Gnames & Gkeys).
    pose proof (build_nodup id s args kwargs bound Hs Hkw Hb) as Hnd.
    unfold recorded_parameters in Hr. destruct (check_parameters_get _ _ _ _ _ Hr) as [Hk Hc].
    assert (Hval : forall k, In k (p_names s) -> valid_name k).
    { intros k H. destruct Hs as (_ & Hv & _). apply in_map_iff in H as (q & <- & Hq). auto. }
    set (bp := build_parameters id s args kwargs) in *.
    set (ex := explicit s args kwargs) in *.
    assert (Hndp : NoDup (dkeys p)) by (rewrite Hk; exact Hnd).
    (* the recorded entries of a parameter *)
    assert (Hobj : forall k cl r, In k (p_names s) -> dget bound k = Some (VObj cl r) ->
              dget p k = None /\ dget p (k ++ "(id)") = Some (VObj cl r)).
    { intros k cl r Hn Hbk. destruct (Hbound k _ Hbk) as [Hpl|(cl' & r' & E1 & Hd)]; [discriminate|].
      injection E1 as <- <-. destruct (Gnames k Hn) as [Ga Gb].
      assert (Hex : dget ex k = Some (VObj cl r)).
      { destruct (dget ex k) as [v|] eqn:Ex; [now rewrite (Hg1 _ _ Ex) in Hbk|].
        rewrite (Hg2 _ Ex) in Hbk. unfold default_of in Hd. congruence. }
      rewrite Hex in Ga, Gb. cbn [is_object] in Ga, Gb. rewrite Hd in Ga.
      pose proof (Hc k) as Hck. rewrite Ga in Hck.
      pose proof (Hc (k ++ "(id)")) as Hci. rewrite Gb in Hci. destruct Hci as (v' & Hv' & _ & Hann).
      rewrite (Hann (annotation_id s k Hs)) in Hv'. auto. }
    assert (Hpl : forall k v, In k (p_names s) -> dget bound k = Some v -> plain v = true ->
              dget p (k ++ "(id)") = None /\ exists v', dget p k = Some v' /\ kept E d (dget (annotations (s_params s)) k) v v').
    { intros k v Hn Hbk Hp. destruct (Gnames k Hn) as [Ga Gb].
      assert (Hno : is_object v = false) by now destruct v.
      assert (Ga' : dget bp k = Some v /\ dget bp (k ++ "(id)") = None).
      { destruct (dget ex k) as [v0|] eqn:Ex.
        - rewrite (Hg1 _ _ Ex) in Hbk. injection Hbk as ->. rewrite Hno in Ga, Gb. auto.
        - rewrite (Hg2 _ Ex) in Hbk. unfold default_of in Ga. rewrite Ga, Gb. auto. }
      destruct Ga' as [Ga1 Ga2]. pose proof (Hc k) as Hck. rewrite Ga1 in Hck. destruct Hck as (v' & Hv' & Hkept & _).
      pose proof (Hc (k ++ "(id)")) as Hci. rewrite Ga2 in Hci. split; [exact Hci|]. eauto. }
    assert (Hbn : forall k, In k (p_names s) -> exists v, dget bound k = Some v).
    { intros k Hn. apply (bind_in_names _ _ _ _ _ Hb) in Hn. destruct (dget bound k) eqn:Eb; eauto.
      apply dget_none in Eb. contradiction. }
    assert (Hnb : forall k v, dget bound k = Some v -> In k (p_names s)).
    { intros k v Hk0. apply (bind_in_names _ _ _ _ _ Hb). apply dget_in in Hk0. apply in_map_iff. exists (k, v). auto. }
    assert (Hpid : dget p "id" = Some (VOid id)).
    { pose proof (Hc "id") as H1. rewrite Gid in H1. destruct H1 as (v' & Hv' & _ & Hann).
      assert (Ha : dget (annotations (s_params s)) "id" = None).
      { apply dget_none. intros H. apply annotations_keys in H. apply Hval in H. now destruct H. }
      now rewrite (Hann Ha) in Hv'. }
    (* the kinds of recorded entries *)
    assert (Hkinds : forall q v, dget p q = Some v -> q = "id" /\ v = VOid id \/
              (exists k cl r, In k (p_names s) /\ q = k ++ "(id)" /\ dget bound k = Some (VObj cl r) /\ v = VObj cl r) \/
              (exists v0, In q (p_names s) /\ dget bound q = Some v0 /\ plain v0 = true /\ kept E d (dget (annotations (s_params s)) q) v0 v)).
    { intros q v Hq.
      assert (Hin : In q (dkeys bp)).
      { rewrite <- Hk. apply dget_in in Hq. apply in_map_iff. exists (q, v). auto. }
      destruct (Gkeys q Hin) as [->|[H|(k & H & ->)]].
      - left. split; [reflexivity|congruence].
      - right. right. destruct (Hbn q H) as (v0 & Hv0). exists v0. destruct (Hbound q v0 Hv0) as [Hp|(cl & r & -> & _)].
        + destruct (Hpl q v0 H Hv0 Hp) as (_ & v' & Hv' & Kp). assert (v' = v) as -> by congruence. auto.
        + destruct (Hobj q cl r H Hv0) as (Hn & _). congruence.
      - right. left. destruct (Hbn k H) as (v0 & Hv0). destruct (Hbound k v0 Hv0) as [Hp|(cl & r & -> & _)].
        + destruct (Hpl k v0 H Hv0 Hp) as (Hn & _). congruence.
        + destruct (Hobj k cl r H Hv0) as (_ & Hs2). exists k, cl, r. split; [auto|]. split; [auto|]. split; [auto|congruence]. }
    assert (Hskey : forall q v, dget p q = Some v -> skey q v <> q -> skey q v = q ++ "(id)" /\ In q (p_names s) /\ dget p (q ++ "(id)") = None).
    { intros q v Hq Hne. destruct (skey_cases q v) as [|Hs1]; [contradiction|]. split; [exact Hs1|].
      destruct (Hkinds q v Hq) as [[-> ->]|[(k & cl & r & _ & -> & _ & ->)|(v0 & Hn & Hv0 & Hp & _)]].
      - cbn [skey] in Hne. congruence.
      - cbn [skey] in Hne. congruence.
      - split; [exact Hn|]. now destruct (Hpl q v0 Hn Hv0 Hp). }
    assert (Hap : apart p).
    { intros q v Hin Hne Hin2. assert (Hq : dget p q = Some v) by now apply dget_nodup_in.
      destruct (Hskey q v Hq Hne) as (Hs1 & _ & Hn). rewrite Hs1 in Hin2. apply dget_none in Hn. contradiction. }
    do 6 (split; [assumption|]). exact Hap.
  Qed.
  (** What the backend's method receives. *)
  Lemma loaded_args E d id s args kwargs bound p oidf oidf' P' objs cls ap :
    valid_sig s -> NoDup (dkeys kwargs) -> bind_args s args kwargs = Ok bound ->
    recorded_parameters E d id s args kwargs = Ok p ->
    (forall k f u cl r, In (k, VConv f u) p -> pure f u = Ok (VObj cl r) -> exists R, dget objs (oidf' r) = Some R) ->
    (forall k v, dget bound k = Some v -> plain v = true \/
       exists cl r, v = VObj cl r /\ default_of s k = None /\ exists R, dget objs (oidf r) = Some R) ->
    Forall2 (fun kv kv' => exists x j, saved1 pure oidf' kv = Ok (fst kv', x) /\
               encode txt oidf' x = Ok j /\ snd kv' = decode j) (id_map oidf p) P' ->
    exists kws, resolve objs cls ap P' = Ok kws /\
      dget P' "id" = Some (VInt id) /\
      forall k, match dget bound k with
                | Some (VObj _ r) => exists R, dget objs (oidf r) = Some R /\ dget kws k = Some (VObj (cls R) R)
                | Some v => exists w x, dget kws k = Some w /\
                    (x = v /\ untouched E d (dget (annotations (s_params s)) k) v \/ exists a b f, tried E (dget (annotations (s_params s)) k) v a /\ In b (mro E (class_of v)) /\ conv_for E d b a = Some f /\
                       pure f v = Ok x /\ In (k, VConv f v) p) /\
                    match x with
                    | VObj _ r => exists R, dget objs (oidf' r) = Some R /\ w = VObj (cls R) R
                    | _ => exists j, encode txt oidf' x = Ok j /\ w = decode j
                    end
                | None => dget kws k = None
                end.
  Proof.
    intros Hs Hkw Hb Hr Hreg Hbound HF.
    pose proof (same_params oidf oidf' p P' HF) as HF'.
    destruct (recorded_shape E d id s args kwargs bound p Hs Hkw Hb Hr) as (Hndp & Hpid & Hobj0 & Hpl & Hkinds & Hskey & Hap).
    { intros k v H. destruct (Hbound k v H) as [|(cl & r & H1 & H2 & _)]; eauto. }
    assert (Hval : forall k, In k (p_names s) -> valid_name k).
    { intros k H. destruct Hs as (_ & Hv & _). apply in_map_iff in H as (q & <- & Hq). auto. }
    assert (Hobj : forall k cl r, In k (p_names s) -> dget bound k = Some (VObj cl r) ->
              dget p k = None /\ dget p (k ++ "(id)") = Some (VObj cl r) /\ exists R, dget objs (oidf r) = Some R).
    { intros k cl r Hn Hbk. destruct (Hobj0 k cl r Hn Hbk) as [H1 H2]. split; [exact H1|]. split; [exact H2|].
      destruct (Hbound k _ Hbk) as [|(cl' & r' & H3 & _ & HR)]; [discriminate|]. injection H3 as <- <-. exact HR. }
    assert (Hbn : forall k, In k (p_names s) -> exists v, dget bound k = Some v).
    { intros k Hn. apply (bind_in_names _ _ _ _ _ Hb) in Hn. destruct (dget bound k) eqn:Eb; eauto.
      apply dget_none in Eb. contradiction. }
    assert (Hnb : forall k v, dget bound k = Some v -> In k (p_names s)).
    { intros k v Hk0. apply (bind_in_names _ _ _ _ _ Hb). apply dget_in in Hk0. apply in_map_iff. exists (k, v). auto. }
    destruct (same_params_get _ _ _ _ Hndp Hap HF') as (HndP & Hget & Hback).
    assert (HidP : dget P' "id" = Some (VInt id)).
    { destruct (Hget "id" _ Hpid) as (w & Hw & Hwi). cbn [wired encode] in Hwi. destruct Hwi as (j & Hj & ->). injection Hj as <-.
      exact Hw. }
    (* all entries but "id" *)
    assert (HL : forall k, dget (ddel P' "id") k = if eqb k "id" then None else dget P' k) by (intros k; apply dget_ddel).
    assert (HndL : NoDup (dkeys (ddel P' "id"))) by now apply ddel_nodup.
    assert (HkL : forall q w, dget (ddel P' "id") q = Some w ->
       (In q (p_names s) /\ (forall z, w <> VOid z) /\ (forall f u, w <> VConv f u)) \/
       exists k0, In k0 (p_names s) /\ q = k0 ++ "(id)" /\ exists z R, w = VInt z /\ dget objs z = Some R).
    { intros q w Eq. rewrite HL in Eq. destruct (eqb_spec q "id") as [|Hne]; [discriminate|].
      destruct (Hback q w Eq) as (k & v & Hp & -> & Hwi).
      destruct (Hkinds k v Hp) as [[-> ->]|[(k0 & cl & r & Hn & -> & Hb0 & ->)|(v0 & Hn & Hv0 & Hpl0 & Kp)]].
      - cbn [skey] in Hne. congruence.
      - right. cbn [skey]. exists k0. split; [exact Hn|]. split; [reflexivity|]. cbn [wired] in Hwi. subst w.
        destruct (Hobj k0 cl r Hn Hb0) as (_ & _ & R & HR). eauto.
      - destruct (String.eqb_spec (skey k v) k) as [E1|E1].
        + left. rewrite E1. split; [exact Hn|]. eapply wired_plain; eauto.
        + right. destruct (Hskey k v Hp E1) as (E2 & _). exists k. split; [exact Hn|]. split; [exact E2|].
          destruct v; cbn [skey] in E1; try congruence. cbn [wired] in Hwi. destruct Hwi as (x & Hx & Hwi). rewrite Hx in E1.
          destruct x; try congruence. apply dget_in in Hp. destruct (Hreg _ _ _ _ _ Hp Hx) as (R & HR). exists (oidf' r), R. auto. }
    assert (Hrv : exists kws, resolve objs cls ap P' = Ok kws).
    { unfold resolve. apply resolve_loop_total. intros q w Hin.
      assert (Hq : dget (ddel P' "id") q = Some w) by now apply dget_nodup_in.
      destruct (HkL q w Hq) as [(Hn & W)|(k0 & Hn & -> & W)].
      - destruct (Hval q Hn) as [_ ->]. exact W.
      - rewrite strip_id_app. exact W. }
    destruct Hrv as (kws & Hres). exists kws. split; [exact Hres|]. split; [exact HidP|].
    unfold resolve in Hres. intros k. destruct (dget bound k) as [v|] eqn:Ebk.
    - pose proof (Hnb k v Ebk) as Hn. pose proof (Hval k Hn) as [Hnid Hst].
      assert (Hkne : eqb k "id" = false) by now apply eqb_neq.
      assert (Hkne' : eqb (k ++ "(id)") "id" = false) by (apply eqb_neq, app_id_not_id).
      (* an entry under the marked key *)
      assert (Hmark : forall z R, dget P' (k ++ "(id)") = Some (VInt z) -> dget P' k = None -> dget objs z = Some R ->
                dget kws k = Some (VObj (cls R) R)).
      { intros z R Hw Hno HR.
        destruct (resolve_entry _ _ _ _ _ (k ++ "(id)") (VInt z) Hres HndL) as (acc & acc' & Hr1 & Hg).
        * rewrite HL, Hkne'. exact Hw.
        * intros q' Hq' Ht Hne. rewrite target_id in Ht. destruct (target_cases _ _ Ht) as [->|Eq]; [|congruence].
          destruct (dget (ddel P' "id") k) eqn:Eq; [|apply dget_none in Eq; contradiction].
          rewrite HL, Hkne in Eq. congruence.
        * rewrite target_id in Hg. unfold resolve1 in Hr1. rewrite strip_id_app, HR in Hr1. injection Hr1 as <-.
          now rewrite dget_dset_same in Hg. }
      destruct (Hbound k v Ebk) as [Hp|(cl & r & -> & Hd & _)].
      + destruct (Hpl k v Hn Ebk Hp) as (Hno & v' & Hv' & Hkept).
        destruct (Hget k v' Hv') as (w & Hw & Hwi).
        assert (Hfin : exists w x, dget kws k = Some w /\
                  (x = v /\ untouched E d (dget (annotations (s_params s)) k) v \/ exists a b f, tried E (dget (annotations (s_params s)) k) v a /\ In b (mro E (class_of v)) /\ conv_for E d b a = Some f /\
                     pure f v = Ok x /\ In (k, VConv f v) p) /\
                  match x with
                  | VObj _ r => exists R, dget objs (oidf' r) = Some R /\ w = VObj (cls R) R
                  | _ => exists j, encode txt oidf' x = Ok j /\ w = decode j
                  end).
        { destruct (String.eqb_spec (skey k v') k) as [E1|E1].
          * rewrite E1 in Hw. exists w.
            assert (Hkw' : dget kws k = Some w).
            { destruct (resolve_entry _ _ _ _ _ k w Hres HndL) as (acc & acc' & Hr1 & Hg).
              - rewrite HL, Hkne. exact Hw.
              - intros q' Hq' Ht Hne. rewrite (target_name k Hst) in Ht. destruct (target_cases _ _ Ht) as [|Eq]; [congruence|].
                subst q'. destruct (dget (ddel P' "id") (k ++ "(id)")) eqn:Eq; [|apply dget_none in Eq; contradiction].
                rewrite HL, Hkne' in Eq. destruct (Hback _ _ Eq) as (k2 & v2 & Hp2 & Eq2 & _).
                destruct (skey_cases k2 v2) as [F|F]; rewrite F in Eq2.
                + subst k2. congruence.
                + apply app_id_inj in Eq2. subst k2. assert (v2 = v') by congruence. subst v2. rewrite E1 in F.
                  apply (f_equal String.length) in F. rewrite string_length_app in F. cbn in F. lia.
              - rewrite (target_name k Hst) in Hg. unfold resolve1 in Hr1. rewrite Hst in Hr1.
                destruct (wired_plain _ _ _ _ Hwi) as [W1 W2].
                assert (acc' = dset acc k w).
                { destruct w; try (injection Hr1 as <-; reflexivity);
                    [exfalso; eapply W1; reflexivity | exfalso; eapply W2; reflexivity]. }
                subst acc'. now rewrite dget_dset_same in Hg. }
            destruct Hkept as [[-> Hun]|(a & b & f & K0 & K1 & K2 & ->)].
            - exists v. split; [exact Hkw'|]. split; [left; split; [reflexivity|exact Hun]|]. destruct v; try discriminate Hp; exact Hwi.
            - cbn [wired] in Hwi. destruct Hwi as (x & J1 & J2). exists x. split; [exact Hkw'|].
              split; [right; exists a, b, f; do 4 (split; [assumption|]); now apply dget_in|].
              cbn [skey] in E1. rewrite J1 in E1. destruct x; try exact J2.
              apply (f_equal String.length) in E1. rewrite string_length_app in E1. cbn in E1. lia.
          * destruct (Hskey k v' Hv' E1) as (E2 & _ & _). rewrite E2 in Hw.
            destruct Hkept as [[-> Hun]|(a & b & f & K0 & K1 & K2 & ->)].
            { destruct v; try discriminate Hp; cbn [skey] in E1; congruence. }
            cbn [wired] in Hwi. destruct Hwi as (x & J1 & J2). cbn [skey] in E1. rewrite J1 in E1.
            destruct x; try congruence. subst w. pose proof (dget_in _ _ _ Hv') as Hin.
            destruct (Hreg _ _ _ _ _ Hin J1) as (R & HR). exists (VObj (cls R) R), (VObj c r).
            split; [|split; [right; exists a, b, f; auto|eauto]].
            apply (Hmark _ R Hw); [|exact HR]. destruct (dget P' k) as [w'|] eqn:Ek; [|reflexivity].
            destruct (Hback _ _ Ek) as (k2 & v2 & Hp2 & Eq2 & _). exfalso. destruct (skey_cases k2 v2) as [F|F]; rewrite F in Eq2.
            - subst k2. assert (v2 = VConv f v) by congruence. subst v2. rewrite E2 in F.
              apply (f_equal String.length) in F. rewrite string_length_app in F. cbn in F. lia.
            - symmetry in Eq2. exact (app_id_not_valid k2 k Hst Eq2). }
        destruct v; try discriminate Hp; exact Hfin.
      + destruct (Hobj k cl r Hn Ebk) as (Hno & Hw & R & HR). exists R. split; [exact HR|].
        destruct (Hget _ _ Hw) as (w & Hw2 & Hwi). cbn [skey wired] in Hw2, Hwi. subst w.
        apply (Hmark _ R Hw2); [|exact HR]. destruct (dget P' k) as [w'|] eqn:Ek; [|reflexivity].
        destruct (Hback _ _ Ek) as (k2 & v2 & Hp2 & Eq2 & _). exfalso. destruct (skey_cases k2 v2) as [F|F]; rewrite F in Eq2.
        * subst k2. congruence.
        * symmetry in Eq2. exact (app_id_not_valid k2 k Hst Eq2).
    - rewrite (resolve_loop_other _ _ _ _ _ _ k Hres); [reflexivity|].
      intros q Hq Ht. assert (Hn : ~ In k (p_names s)).
      { intros Hn. destruct (Hbn k Hn) as (v & Hv). congruence. }
      destruct (dget (ddel P' "id") q) as [w|] eqn:Eq; [|apply dget_none in Eq; contradiction].
      destruct (HkL q w Eq) as [(Hq1 & _)|(k0 & Hq1 & -> & _)].
      + rewrite (target_name q) in Ht by apply (Hval q Hq1). congruence.
      + rewrite target_id in Ht. congruence.
  Qed.
End Args.

(** ** The registry while commands are replayed *)
Lemma id_of_create_n n s r : (r < length (heap s))%nat -> id_of (create_n n s) r = id_of s r.
Proof. intros H. unfold id_of. rewrite heap_create_n. now rewrite nth_error_app1. Qed.
Lemma id_of_create s r : (r < length (heap s))%nat -> id_of (fst (create s)) r = id_of s r.
Proof. intros H. unfold id_of, create. cbn [fst heap]. now rewrite nth_error_app1. Qed.
Lemma len_create_n n s : length (heap (create_n n s)) = (length (heap s) + n)%nat.
Proof. now rewrite heap_create_n, app_length, map_length, seq_length. Qed.
Lemma len_create s : length (heap (fst (create s))) = S (length (heap s)).
Proof. unfold create. cbn [fst heap]. rewrite app_length. cbn. lia. Qed.

Lemma id_of_replay_old s pre post oid r : (r < length (heap s))%nat ->
  id_of (fst (replay s pre post oid)) r = id_of s r.
Proof.
  intros H. pose proof (replay_unfold s pre post oid) as Er. cbn zeta in Er. rewrite Er. cbn [fst].
  unfold id_of at 1. cbn [heap]. fold (id_of (set_id (create_n post (fst (create (create_n pre s))))
    (length (heap s) + pre) oid) r). rewrite id_of_set_id.
  destruct (Nat.eqb_spec r (length (heap s) + pre)) as [->|_]; [lia|].
  rewrite id_of_create_n, id_of_create, id_of_create_n; auto; rewrite ?len_create, ?len_create_n; lia.
Qed.

(** ** The client *)
Section Client.
  Context (E : cenv) (d : registry).

  (** The objects the program holds exist, with identifiers given out so far,
      all different. *)
  Definition holds (s : rstate) (made : list (ref * string)) : Prop :=
    (forall r path, In (r, path) made -> (r < length (heap s))%nat /\
        exists z, id_of s r = Some z /\ (z <= counter s)%Z) /\
    NoDup (map (fun rp => oid_in s (fst rp)) made).

  Lemma new_state c cl path pre post sg args kw :
    cl_reg (act E d c (New cl path pre post sg args kw)) = create_n post (fst (create (create_n pre (cl_reg c)))) /\
    cl_made (act E d c (New cl path pre post sg args kw)) =
      (cl_made c ++ [((length (heap (cl_reg c)) + pre)%nat, path)])%list.
  Proof.
    cbn [act]. destruct (create (create_n pre (cl_reg c))) as [s2 [r id]] eqn:Ec.
    cbn [cl_reg cl_made fst]. unfold create in Ec. injection Ec as <- <- <-. split; [reflexivity|].
    now rewrite len_create_n.
  Qed.

  Lemma new_id s pre post : id_of (create_n post (fst (create (create_n pre s)))) (length (heap s) + pre) =
    Some (counter s + Z.of_nat pre + 1)%Z.
  Proof.
    rewrite id_of_create_n by (rewrite len_create, len_create_n; lia).
    unfold id_of, create. cbn [fst heap]. rewrite nth_error_app2 by (rewrite len_create_n; lia).
    rewrite len_create_n, Nat.sub_diag. cbn [nth_error]. rewrite counter_create_n. f_equal. lia.
  Qed.
  Lemma new_counter s pre post : counter (create_n post (fst (create (create_n pre s)))) =
    (counter s + Z.of_nat (pre + 1 + post))%Z.
  Proof. rewrite counter_create_n, counter_create, counter_create_n. lia. Qed.

  Lemma oid_kept c a r : (r < length (heap (cl_reg c)))%nat ->
    oid_in (cl_reg (act E d c a)) r = oid_in (cl_reg c) r /\
    (r < length (heap (cl_reg (act E d c a))))%nat.
  Proof.
    intros Hr. destruct a; [|auto].
    destruct (new_state c cl path pre post sg args kw) as [-> _]. unfold oid_in.
    rewrite id_of_create_n, id_of_create, id_of_create_n; rewrite ?len_create_n, ?len_create, ?len_create_n; auto; try lia.
  Qed.

  Lemma holds_act c a : holds (cl_reg c) (cl_made c) -> holds (cl_reg (act E d c a)) (cl_made (act E d c a)).
  Proof.
    intros [H1 H2]. destruct a as [cl path pre post sg args kw|]; [|split; auto].
    assert (Hold : forall r p, In (r, p) (cl_made c) ->
      id_of (cl_reg (act E d c (New cl path pre post sg args kw))) r = id_of (cl_reg c) r).
    { intros r p Hin. destruct (H1 r p Hin) as [Hr _]. destruct (new_state c cl path pre post sg args kw) as [-> _].
      rewrite id_of_create_n, id_of_create, id_of_create_n; rewrite ?len_create, ?len_create_n; auto; lia. }
    destruct (new_state c cl path pre post sg args kw) as [Es Em]. rewrite Em. split.
    - intros r p Hin. apply in_app_or in Hin as [Hin|[Hin|[]]].
      + rewrite (Hold r p Hin). destruct (H1 r p Hin) as (Hr & z & Hz & Hle). rewrite Es.
        rewrite len_create_n, len_create, len_create_n, new_counter. split; [lia|]. exists z. split; [auto|lia].
      + injection Hin as <- <-. rewrite Es, new_id, new_counter, len_create_n, len_create, len_create_n. split; [lia|].
        eexists. split; [reflexivity|]. lia.
    - rewrite map_app. cbn [map fst].
      assert (Hmap : map (fun rp => oid_in (cl_reg (act E d c (New cl path pre post sg args kw))) (fst rp)) (cl_made c) =
                     map (fun rp => oid_in (cl_reg c) (fst rp)) (cl_made c)).
      { apply map_ext_in. intros [r p] Hin. cbn [fst]. unfold oid_in. now rewrite (Hold r p Hin). }
      rewrite Hmap. apply NoDup_Add with (a := oid_in (cl_reg (act E d c (New cl path pre post sg args kw))) (length (heap (cl_reg c)) + pre)) (l := map (fun rp => oid_in (cl_reg c) (fst rp)) (cl_made c)).
      { rewrite <- (app_nil_r (map _ _)) at 1. apply Add_app. }
      split; [exact H2|]. intros Hin. apply in_map_iff in Hin as ([r p] & Eq & Hin). cbn [fst] in Eq.
      destruct (H1 r p Hin) as (_ & z & Hz & Hle). rewrite Es in Eq. unfold oid_in in Eq. rewrite new_id, Hz in Eq. lia.
  Qed.

  (** What one step records. *)
  Definition id_of_act (c : client) (a : action) : Z :=
    match a with
    | New _ _ pre _ _ _ _ => (counter (cl_reg c) + Z.of_nat pre + 1)%Z
    | Call r _ _ _ _ _ => oid_in (cl_reg c) r
    end.
  Definition sg_of (a : action) := match a with New _ _ _ _ sg _ _ => sg | Call _ _ _ sg _ _ => sg end.
  Definition args_of (a : action) := match a with New _ _ _ _ _ x _ => x | Call _ _ _ _ x _ => x end.
  Definition kw_of (a : action) := match a with New _ _ _ _ _ _ x => x | Call _ _ _ _ _ x => x end.
  Definition class_of_act (a : action) := match a with New cl _ _ _ _ _ _ => cl | Call _ cl _ _ _ _ => cl end.
  Definition method_of_act (a : action) := match a with New _ path _ _ _ _ _ => path | Call _ _ m _ _ _ => m end.
  Definition records (c : client) (a : action) (cmd : command) : Prop :=
    exists p, recorded_parameters E d (id_of_act c a) (sg_of a) (args_of a) (kw_of a) = Ok p /\
      c_class cmd = class_of_act a /\ c_method cmd = method_of_act a /\
      c_params cmd = id_map (oid_in (cl_reg (act E d c a))) p.
  Fixpoint records_all (c : client) (l : list action) (cmds : list command) : Prop :=
    match l, cmds with
    | [], [] => True
    | a :: l', m :: cmds' => records c a m /\ records_all (act E d c a) l' cmds'
    | _, _ => False
    end.

  Context (txt : string -> Z -> option jval) (pure : func -> value -> res value).

  Lemma fine_args_of c a : fine txt pure E d c a ->
    fine_args txt pure E d (cl_made c) (id_of_act c a) (sg_of a) (args_of a) (kw_of a).
  Proof. destruct a; cbn; tauto. Qed.

  (** A writable current queue of a reachable session. *)
  Definition writable (s : sys) : Prop := wf s /\ rec s = true /\ readonly s (cur s) = false.

  Lemma act_sys c a : exists k, cl_sys (act E d c a) = fst (complete (cl_sys c) k) /\
    k_env k = E /\ k_conv k = d /\ k_id k = id_of_act c a /\ k_class k = class_of_act a /\
    k_method k = method_of_act a /\ k_sig k = sg_of a /\ k_args k = args_of a /\ k_kwargs k = kw_of a /\
    k_nocmd k = false /\ k_body k = Ok VNone /\ k_oidf k = oid_in (cl_reg (act E d c a)).
  Proof.
    destruct a.
    - cbn [act]. destruct (create (create_n pre (cl_reg c))) as [s2 [r id]] eqn:Ec.
      cbn [cl_sys cl_reg]. unfold create in Ec. injection Ec as <- <- <-. eexists. split; [reflexivity|].
      cbn [k_env k_conv k_id k_class k_method k_sig k_args k_kwargs k_nocmd k_body k_oidf id_of_act class_of_act method_of_act sg_of args_of kw_of].
      rewrite counter_create_n. repeat split; auto.
      change (1 + (counter (cl_reg c) + Z.of_nat pre) = counter (cl_reg c) + Z.of_nat pre + 1)%Z. lia.
    - eexists. split; [reflexivity|]. repeat split.
  Qed.

  Lemma act_records c a : writable (cl_sys c) -> fine txt pure E d c a ->
    writable (cl_sys (act E d c a)) /\ cur (cl_sys (act E d c a)) = cur (cl_sys c) /\
    active (cl_sys (act E d c a)) = Some (cur (cl_sys c)) /\
    exists cmd, records c a cmd /\
      commands (cl_sys (act E d c a)) (cur (cl_sys c)) = (commands (cl_sys c) (cur (cl_sys c)) ++ [cmd])%list.
  Proof.
    intros (Hwf & Hrec & Hro) Hf. apply fine_args_of in Hf.
    destruct Hf as (Hs & Hkw & _ & (bound & Hb & _) & p & Hp & _).
    destruct (act_sys c a) as (k & Ek & K1 & K2 & K3 & K4 & K5 & K6 & K7 & K8 & K9 & K10 & K11).
    assert (Hlog : loggable k = Some p).
    { unfold loggable, undecorated, call_params. rewrite K6, K7, K8, Hb. cbn [bind]. rewrite K10, K1, K2, K3, Hp, K9. reflexivity. }
    destruct (complete_effect (cl_sys c) k Hwf) as (W1 & W2 & _ & W4 & W5 & W6 & W7 & W8 & W9).
    rewrite <- Ek in *.
    assert (Hent : log_entry (cl_sys c) k (cur (cl_sys c)) =
      [mkC (1 + cids (cl_sys c)) (k_class k) (k_method k) (id_map (k_oidf k) p)]).
    { unfold log_entry. rewrite Hlog, Hrec, Nat.eqb_refl, Hro. reflexivity. }
    pose proof (W5 (cur (cl_sys c))) as Hcm. rewrite Hent in Hcm.
    assert (Hlen : (cur (cl_sys c) < length (qs (cl_sys (act E d c a))))%nat).
    { unfold commands in Hcm. destruct (nth_error (qs (cl_sys (act E d c a))) (cur (cl_sys c))) eqn:En.
      - apply nth_error_Some. congruence.
      - exfalso. apply (f_equal (@length command)) in Hcm. rewrite app_length in Hcm. cbn in Hcm. lia. }
    assert (Hact : active (cl_sys (act E d c a)) = Some (cur (cl_sys c))).
    { destruct Hwf as (Ha & _). destruct W1 as (Ha' & _). rewrite Ha'. unfold cur. unfold cur in Hlen.
      destruct (active (cl_sys c)) as [q|] eqn:Eq.
      - rewrite W9 by discriminate. now rewrite <- Ha.
      - assert (length (qs (cl_sys c)) = 0%nat) by (destruct (length (qs (cl_sys c))); [auto|discriminate Ha]).
        rewrite H in *. rewrite Ek.
        unfold complete. unfold loggable in Hlog.
        destruct (undecorated k); [|discriminate]. destruct (call_params k) eqn:Ecp; [|discriminate].
        rewrite Hrec. cbn [negb]. unfold get_queue. rewrite Eq. unfold new_queue.
        rewrite K9. cbn [negb andb].
        match goal with |- context [readonly ?s ?q] => assert (Hr0 : readonly s q = false) end.
        { unfold readonly. cbn [qs]. rewrite nth_error_app2 by lia. rewrite Nat.sub_diag. reflexivity. }
        rewrite Hr0. cbn [negb]. unfold new_command, mk_command.
        rewrite (call_params_id k _ Ecp). cbn [fst]. unfold push. cbn [qs].
        rewrite nth_error_app2 by lia. rewrite H, Nat.sub_diag. cbn [nth_error q_ro fst set_qs qs q_cmds q_name].
        rewrite upd_length, app_length, H. reflexivity. }
    assert (Hcur : cur (cl_sys (act E d c a)) = cur (cl_sys c)) by (unfold cur at 1; now rewrite Hact).
    split; [split; [exact W1|]; split; [congruence|]; rewrite Hcur, W4; exact Hro|].
    split; [exact Hcur|]. split; [exact Hact|].
    eexists. split; [|exact Hcm]. exists p. cbn [c_class c_method c_params]. rewrite K4, K5, K11. auto.
  Qed.

  Lemma acts_records l : forall c, writable (cl_sys c) -> fine_session txt pure E d c l ->
    writable (cl_sys (acts E d c l)) /\ cur (cl_sys (acts E d c l)) = cur (cl_sys c) /\
    (l <> [] -> active (cl_sys (acts E d c l)) = Some (cur (cl_sys c))) /\
    exists cmds, records_all c l cmds /\
      commands (cl_sys (acts E d c l)) (cur (cl_sys c)) = (commands (cl_sys c) (cur (cl_sys c)) ++ cmds)%list.
  Proof.
    induction l as [|a l IH]; intros c Hw Hf.
    - split; [exact Hw|]. split; [reflexivity|]. split; [congruence|]. exists []. split; [exact I|]. cbn. now rewrite app_nil_r.
    - destruct Hf as [Hf Hfl]. destruct (act_records c a Hw Hf) as (W1 & W2 & W3 & cmd & W4 & W5).
      destruct (IH _ W1 Hfl) as (V1 & V2 & V3 & cmds & V4 & V5). change (acts E d c (a :: l)) with (acts E d (act E d c a) l).
      split; [exact V1|]. split; [congruence|]. split.
      + intros _. destruct l as [|b l]; [exact W3|]. rewrite <- W2. apply V3. discriminate.
      + exists (cmd :: cmds). split; [now split|]. rewrite W2 in V5. rewrite V5, W5, <- app_assoc. reflexivity.
  Qed.
End Client.

(** ** The server *)
Lemma stands_for_more made bs made' bs' r path R :
  stands_for made bs r path R -> stands_for (made ++ made')%list (bs ++ bs')%list r path R.
Proof.
  intros (n & H1 & H2). exists n. split; (rewrite nth_error_app1; [assumption | apply nth_error_Some; congruence]).
Qed.
Lemma built_app a b : built (a ++ b)%list = (built a ++ built b)%list.
Proof. unfold built. apply flat_map_app. Qed.

Section Server.
  Context (txt : string -> Z -> option jval) (pure : func -> value -> res value) (oidf' : ref -> Z)
          (E : cenv) (d : registry) (B : backend) (ap : func -> value -> res value) (calls : command -> list call).

  Lemma arrives_more made bs made' bs' anns v w :
    arrives txt pure oidf' E d made bs anns v w ->
    arrives txt pure oidf' E d (made ++ made')%list (bs ++ bs')%list anns v w.
  Proof.
    intros (x & Hx & H). exists x. split; [exact Hx|]. destruct x; try exact H.
    destruct H as (path & R & H & ->). exists path, R. split; [|reflexivity]. now apply stands_for_more.
  Qed.
  Lemma received_more made bs made' bs' sg args kw kws :
    received txt pure oidf' E d made bs sg args kw kws ->
    received txt pure oidf' E d (made ++ made')%list (bs ++ bs')%list sg args kw kws.
  Proof.
    intros (bound & Hb & H). exists bound. split; [exact Hb|]. intros k. specialize (H k).
    destruct (dget bound k) as [v|]; [|exact H]. destruct H as (w & H1 & H2). exists w. split; [exact H1|].
    now apply arrives_more.
  Qed.
  Lemma done_more made bs made' bs' a o :
    done txt pure oidf' E d made bs a o -> done txt pure oidf' E d (made ++ made')%list (bs ++ bs')%list a o.
  Proof.
    destruct a, o; cbn [done]; auto.
    - intros [H1 H2]. split; [auto|]. now apply received_more.
    - intros (H1 & (path & H2) & H3). split; [auto|]. split; [|now apply received_more].
      exists path. now apply stands_for_more.
  Qed.
  Lemma refused_more made bs made' bs' a e :
    refused txt pure oidf' E d made bs B a e -> refused txt pure oidf' E d (made ++ made')%list (bs ++ bs')%list B a e.
  Proof.
    destruct a; cbn [refused].
    - intros (kws & H1 & H2). exists kws. split; [now apply received_more | auto].
    - intros (kws & path & R & H1 & H2 & H3). exists kws, path, R.
      split; [now apply stands_for_more|]. split; [now apply received_more | auto].
  Qed.

  (** Every object of the program has its counterpart on the server, under the
      same identifier. *)
  Definition mirrors (c : client) (w : world) : Prop :=
    let '(s, cls, outs) := w in
    recording s = true /\ length (built outs) = length (cl_made c) /\ NoDup (built outs) /\
    forall r path R, stands_for (cl_made c) (built outs) r path R ->
      lookup s (oid_in (cl_reg c) r) = Some R /\ id_of s R = Some (oid_in (cl_reg c) r) /\
      cls R = path /\ (R < length (heap s))%nat /\ (oid_in (cl_reg c) r <= counter s)%Z.

  Lemma mirrors_all c s cls outs r path : mirrors c (s, cls, outs) -> In (r, path) (cl_made c) ->
    exists R, stands_for (cl_made c) (built outs) r path R.
  Proof.
    intros (_ & Hl & _ & _) Hin. apply In_nth_error in Hin as [n Hn].
    destruct (nth_error (built outs) n) as [R|] eqn:ER; [exists R, n; auto|].
    apply nth_error_None in ER. assert (n < length (cl_made c))%nat by (apply nth_error_Some; congruence). lia.
  Qed.

  (** Identifiers at the end of the session are those now. *)
  Definition named_so (c : client) : Prop := forall r path, In (r, path) (cl_made c) -> oidf' r = oid_in (cl_reg c) r.

  Lemma step_args c a cmd cmd' s cls outs :
    holds (cl_reg c) (cl_made c) -> fine txt pure E d c a -> records E d c a cmd ->
    same_command txt pure oidf' cmd cmd' -> mirrors c (s, cls, outs) -> named_so c ->
    exists kws, resolve (objects s) cls ap (c_params cmd') = Ok kws /\
      dget (c_params cmd') "id" = Some (VInt (id_of_act c a)) /\
      received txt pure oidf' E d (cl_made c) (built outs) (sg_of a) (args_of a) (kw_of a) kws.
  Proof.
    intros [Hh _] Hf (p & Hp & _ & _ & Hpar) (_ & Hsame) Hm Hnm.
    destruct (fine_args_of E d txt pure c a Hf) as (Hs & Hkw & _ & (bound & Hb & Hbd) & p' & Hp' & Hsend).
    rewrite Hp in Hp'. injection Hp' as <-.
    rewrite Hpar in Hsame.
    assert (Hoid : forall r path, In (r, path) (cl_made c) -> oid_in (cl_reg (act E d c a)) r = oid_in (cl_reg c) r).
    { intros r path Hin. destruct (Hh r path Hin) as [Hr _]. now apply oid_kept. }
    destruct (loaded_args txt pure E d (id_of_act c a) (sg_of a) (args_of a) (kw_of a) bound p
                (oid_in (cl_reg (act E d c a))) oidf' (c_params cmd') (objects s) cls ap) as (kws & K1 & K2 & K3); auto.
    - intros k f u cl r Hin Hx. destruct (Hsend _ _ Hin) as [|Hs1]; [discriminate|]. cbn [sendable] in Hs1.
      destruct Hs1 as (x & Hx2 & Hs1). assert (x = VObj cl r) as -> by congruence. destruct Hs1 as (path & Hmade).
      destruct (mirrors_all _ _ _ _ _ _ Hm Hmade) as (R & HR). destruct Hm as (_ & _ & _ & Hm).
      destruct (Hm r path R HR) as (Hl & _). exists R. rewrite (Hnm r path Hmade). exact Hl.
    - intros k v Hk. destruct (Hbd k v Hk) as [|(cl & r & path & -> & Hin & Hd)]; [auto|]. right.
      exists cl, r. split; [reflexivity|]. split; [exact Hd|].
      destruct (mirrors_all _ _ _ _ _ _ Hm Hin) as (R & HR). destruct Hm as (_ & _ & _ & Hm).
      destruct (Hm r path R HR) as (Hl & _). exists R. rewrite (Hoid r path Hin). exact Hl.
    - exists kws. split; [exact K1|]. split; [exact K2|]. exists bound. split; [exact Hb|].
      intros k. specialize (K3 k). destruct (dget bound k) as [v|] eqn:Ek; [|exact K3].
      destruct (Hbd k v Ek) as [Hpl|(cl & r & path & -> & Hin & _)].
      + assert (Hno : is_object v = false) by now destruct v.
        assert (K4 : exists w x, dget kws k = Some w /\
                    (x = v /\ untouched E d (dget (annotations (s_params (sg_of a))) k) v \/ exists a0 b f, tried E (dget (annotations (s_params (sg_of a))) k) v a0 /\ In b (mro E (class_of v)) /\ conv_for E d b a0 = Some f /\
                       pure f v = Ok x /\ In (k, VConv f v) p) /\
                    match x with
                    | VObj _ r => exists R, dget (objects s) (oidf' r) = Some R /\ w = VObj (cls R) R
                    | _ => exists j, encode txt oidf' x = Ok j /\ w = decode j
                    end) by (destruct v; try discriminate Hpl; exact K3).
        clear K3. destruct K4 as (w & x & G1 & G2 & G3). exists w. split; [exact G1|]. exists x. split.
        { destruct G2 as [[G2 G4]|(a0 & b & f & T1 & T2 & T3 & T4 & _)]; [left; split; [exact G2|now right]|]. right. split; [exact Hno|]. exists a0, b, f. auto. }
        destruct x as [| | | | | | |cl r| |]; try exact G3. destruct G2 as [[G2 _]|(a0 & b & f & _ & _ & _ & Hx & Hin)]; [subst v; discriminate Hno|].
        destruct (Hsend _ _ Hin) as [|Hs1]; [discriminate|]. cbn [sendable] in Hs1.
        destruct Hs1 as (x & Hx2 & Hs1). assert (x = VObj cl r) as -> by congruence. destruct Hs1 as (path & Hmade).
        destruct G3 as (R & HR & ->). destruct (mirrors_all _ _ _ _ _ _ Hm Hmade) as (R' & HR').
        destruct Hm as (_ & _ & _ & Hm). destruct (Hm r path R' HR') as (Hl & _ & Hc & _).
        rewrite (Hnm r path Hmade) in HR. unfold lookup in Hl. rewrite HR in Hl. injection Hl as <-.
        exists path, R. split; [exact HR'|]. now rewrite Hc.
      + destruct K3 as (R & HR & Hk). destruct (mirrors_all _ _ _ _ _ _ Hm Hin) as (R' & HR').
        destruct Hm as (_ & _ & _ & Hm). destruct (Hm r path R' HR') as (Hl & _ & Hc & _).
        rewrite (Hoid r path Hin) in HR. unfold lookup in Hl. rewrite HR in Hl. injection Hl as <-.
        exists (VObj (cls R) R). split; [exact Hk|]. exists (VObj cl r). split; [left; split; [reflexivity|now left]|]. cbv beta iota. exists path, R. split; [exact HR'|]. now rewrite Hc.
  Qed.

  (** The server keeps ahead of the client. *)
  Definition ahead (K : Z) (c : client) (s : rstate) (l : list action) : Prop :=
    (K <= counter s)%Z \/
    (counter (cl_reg c) <= counter s)%Z /\
    (forall cl path pre post sg args kw kws pre' post', In (New cl path pre post sg args kw) l ->
       b_new B path kws = Ok (pre', post') -> (pre + post <= pre' + post')%nat).

  Lemma serve_step K c a l cmd cmd' s cls outs :
    holds (cl_reg c) (cl_made c) -> fine txt pure E d c a -> records E d c a cmd ->
    same_command txt pure oidf' cmd cmd' -> mirrors c (s, cls, outs) -> named_so c ->
    (counter (cl_reg (act E d c a)) <= K)%Z -> ahead K c s (a :: l) ->
    (forall cl path pre post sg args kw, a = New cl path pre post sg args kw -> b_class B path = true) ->
    (forall r cl m sg args kw path, a = Call r cl m sg args kw -> In (r, path) (cl_made c) -> b_meth B path m = true) ->
    (exists o s1 cls1, serve B ap calls cmd' (s, cls, outs) = ((s1, cls1, (outs ++ [o])%list), calls cmd', Ok tt) /\
       mirrors (act E d c a) (s1, cls1, (outs ++ [o])%list) /\ ahead K (act E d c a) s1 l /\
       done txt pure oidf' E d (cl_made (act E d c a)) (built (outs ++ [o])%list) a o) \/
    (exists e, serve B ap calls cmd' (s, cls, outs) = ((s, cls, outs), calls cmd', Err e) /\
       refused txt pure oidf' E d (cl_made c) (built outs) B a e).
  Proof.
    intros Hh Hf Hr Hsame Hm Hnm HK Hah Hcl Hme.
    destruct (step_args c a cmd cmd' s cls outs Hh Hf Hr Hsame Hm Hnm) as (kws & K1 & K2 & K3).
    destruct Hr as (p & _ & Rc & Rm & _). destruct Hsame as [Ht _]. unfold target_of in Ht. rewrite Rc, Rm in Ht.
    pose proof Hm as (Mrec & Mlen & Mnd & Mall).
    destruct a as [cl path pre post sg args kw|r cl m sg args kw]; cbn [class_of_act method_of_act sg_of args_of kw_of id_of_act] in *.
    - (* a constructor *)
      destruct Hf as (Hdot & _). rewrite Hdot in Ht.
      assert (Hne : String.eqb path "" = false) by (apply String.eqb_neq; intros ->; discriminate Hdot).
      rewrite Hne in Ht. injection Ht as Tc Tm.
      unfold serve, execute. rewrite K2, K1. cbn [bind]. rewrite Tm, Tc.
      change (contains "." "__init__") with false. change (String.eqb "__init__" "__init__") with true. cbv iota.
      rewrite (Hcl _ _ _ _ _ _ _ eq_refl). cbn [oid_of].
      destruct (b_new B path kws) as [[pre' post']|e] eqn:Enew; cbn [bind].
      + left. cbn [fst snd].
        set (oid := (counter (cl_reg c) + Z.of_nat pre + 1)%Z).
        pose proof (replay_result s pre' post' oid) as Hres.
        pose proof (id_of_replay s pre' post' oid) as Hid.
        pose proof (fun k => replay_lookup s pre' post' oid Mrec k) as Hlk.
        pose proof (fun r => id_of_replay_old s pre' post' oid r) as Hold.
        destruct (replay s pre' post' oid) as [s1 R]. cbn [fst snd] in *.
        destruct Hres as (Q1 & Q2 & Q3 & Q4 & Q5).
        destruct (new_state E d c cl path pre post sg args kw) as [Es Em].
        destruct Hh as [Hh1 Hh2].
        assert (Hoid : forall r p0, In (r, p0) (cl_made c) ->
          oid_in (cl_reg (act E d c (New cl path pre post sg args kw))) r = oid_in (cl_reg c) r /\
          (oid_in (cl_reg c) r < oid)%Z).
        { intros r p0 Hin. destruct (Hh1 r p0 Hin) as (Hr & z & Hz & Hle). split; [now apply oid_kept|].
          unfold oid_in. rewrite Hz. unfold oid. lia. }
        assert (Hnew : oid_in (cl_reg (act E d c (New cl path pre post sg args kw))) (length (heap (cl_reg c)) + pre) = oid).
        { rewrite Es. unfold oid_in. now rewrite new_id. }
        rewrite Es, new_counter in HK.
        exists (Built R path kws), s1, (fun x => if Nat.eqb x R then path else cls x).
        split; [reflexivity|]. rewrite built_app. cbn [built flat_map app].
        assert (Hfresh : ~ In R (built outs)).
        { intros Hin. apply In_nth_error in Hin as [n Hn].
          destruct (nth_error (cl_made c) n) as [[r p0]|] eqn:En.
          - destruct (Mall r p0 R) as (_ & _ & _ & Hlt & _); [exists n; auto|]. lia.
          - apply nth_error_None in En. assert (n < length (built outs))%nat by (apply nth_error_Some; congruence). lia. }
        assert (Hle : (oid <= counter s1)%Z).
        { rewrite Q3. destruct Hah as [Hah|[Hah Hd]]; [unfold oid; lia|].
          specialize (Hd cl path pre post sg args kw kws pre' post' (or_introl eq_refl) Enew). unfold oid. lia. }
        split; [|split].
        * unfold mirrors. rewrite built_app. cbn [built flat_map app].
          split; [congruence|]. split; [rewrite Em, !app_length; cbn [length]; lia|]. split.
          { apply NoDup_Add with (a := R) (l := built outs); [|now split].
            rewrite <- (app_nil_r (built outs)) at 1. apply Add_app. }
          intros r p0 R0 (n & N1 & N2). rewrite Em in N1.
          destruct (Nat.lt_ge_cases n (length (cl_made c))) as [Hlt|Hge].
          -- rewrite nth_error_app1 in N1 by assumption. rewrite nth_error_app1 in N2 by (rewrite Mlen; assumption).
             destruct (Mall r p0 R0) as (A1 & A2 & A3 & A4 & A5); [exists n; auto|].
             assert (Hin : In (r, p0) (cl_made c)) by (eapply nth_error_In; eauto).
             destruct (Hoid r p0 Hin) as [-> Hlo].
             destruct (Hlk (oid_in (cl_reg c) r)) as [L1 _]; [lia|].
             rewrite L1 by lia. rewrite Hold by assumption.
             split; [exact A1|]. split; [exact A2|]. split.
             { destruct (Nat.eqb_spec R0 R) as [->|]; [|exact A3]. exfalso. apply Hfresh. eapply nth_error_In; eauto. }
             split; [rewrite Q5; lia | rewrite Q3; lia].
          -- rewrite nth_error_app2 in N1 by assumption. rewrite nth_error_app2 in N2 by (rewrite Mlen; assumption).
             rewrite Mlen in N2. destruct (n - length (cl_made c))%nat as [|m]; cbn [nth_error] in N1, N2;
               [|destruct m; discriminate].
             injection N1 as <- <-. injection N2 as <-. rewrite Hnew, Nat.eqb_refl.
             split; [exact Q1|]. split; [exact Hid|]. split; [reflexivity|]. split; [lia | exact Hle].
        * destruct Hah as [Hah|[Hah Hd]]; [left; lia|]. right. split.
          { rewrite Es, new_counter, Q3.
            specialize (Hd cl path pre post sg args kw kws pre' post' (or_introl eq_refl) Enew). lia. }
          intros. eapply Hd; [right|]; eauto.
        * cbn [done]. split; [reflexivity|]. rewrite Em. now apply received_more.
      + right. exists e. split; [reflexivity|]. cbn [refused]. eauto.
    - (* a method *)
      destruct Hf as ((path & Hin) & Hne & Hni & Hdot & _). rewrite Hdot in Ht.
      assert (Hne' : String.eqb m "" = false) by now apply String.eqb_neq.
      rewrite Hne' in Ht. injection Ht as Tc Tm.
      destruct (mirrors_all _ _ _ _ _ _ Hm Hin) as (R & HR). destruct (Mall r path R HR) as (A1 & A2 & A3 & A4 & A5).
      unfold serve, execute. rewrite K2, K1. cbn [bind]. rewrite Tm, Hdot.
      assert (Hni' : String.eqb m "__init__" = false) by now apply String.eqb_neq. rewrite Hni'. cbn [oid_of].
      rewrite A1, A3, (Hme _ _ _ _ _ _ _ eq_refl Hin).
      destruct (b_call B path m R kws) as [v|e] eqn:Ecall; cbn [bind].
      + left. exists (Called R m kws v), s, cls. split; [reflexivity|].
        rewrite built_app. cbn [built flat_map]. rewrite app_nil_r. split; [|split].
        * unfold mirrors. rewrite built_app. cbn [built flat_map]. rewrite app_nil_r. exact Hm.
        * destruct Hah as [Hah|[Hah Hd]]; [left; exact Hah|]. right. split; [exact Hah|]. intros. eapply Hd; [right|]; eauto.
        * cbn [done]. split; [reflexivity|]. split; [exists path; exact HR | exact K3].
      + right. exists e. split; [reflexivity|]. cbn [refused]. exists kws, path, R. auto.
  Qed.

  Lemma made_act c a : exists more, cl_made (act E d c a) = (cl_made c ++ more)%list.
  Proof.
    destruct a; [|exists []; cbn; now rewrite app_nil_r].
    destruct (new_state E d c cl path pre post sg args kw) as [_ ->]. eauto.
  Qed.
  Lemma made_acts l : forall c, exists more, cl_made (acts E d c l) = (cl_made c ++ more)%list.
  Proof.
    induction l as [|a l IH]; intros c; [exists []; cbn; now rewrite app_nil_r|].
    destruct (made_act c a) as (m1 & H1). destruct (IH (act E d c a)) as (m2 & H2).
    change (acts E d c (a :: l)) with (acts E d (act E d c a) l). rewrite H2, H1, <- app_assoc. eauto.
  Qed.
  Lemma counter_acts l : forall c, (counter (cl_reg c) <= counter (cl_reg (acts E d c l)))%Z.
  Proof.
    induction l as [|a l IH]; intros c; [cbn; lia|].
    change (acts E d c (a :: l)) with (acts E d (act E d c a) l). specialize (IH (act E d c a)).
    enough (counter (cl_reg c) <= counter (cl_reg (act E d c a)))%Z by lia.
    destruct a; [|cbn; lia]. destruct (new_state E d c cl path pre post sg args kw) as [-> _]. rewrite new_counter. lia.
  Qed.

  Lemma named_back l : forall c, holds (cl_reg c) (cl_made c) -> named_so (acts E d c l) -> named_so c.
  Proof.
    induction l as [|a l IH]; intros c Hh Hn; [exact Hn|].
    change (acts E d c (a :: l)) with (acts E d (act E d c a) l) in Hn.
    specialize (IH _ (holds_act E d c a Hh) Hn). intros r path Hin. destruct (made_act c a) as (more & Em).
    rewrite (IH r path). { destruct Hh as [Hh _]. destruct (Hh r path Hin) as [Hr _]. now apply oid_kept. }
    rewrite Em. apply in_or_app. now left.
  Qed.

  Lemma serve_all K l : forall c cmds cmds' s cls outs w' o,
    holds (cl_reg c) (cl_made c) -> fine_session txt pure E d c l -> records_all E d c l cmds ->
    Forall2 (same_command txt pure oidf') cmds cmds' -> mirrors c (s, cls, outs) -> named_so (acts E d c l) ->
    (counter (cl_reg (acts E d c l)) <= K)%Z -> ahead K c s l -> offers B c l E d ->
    executes (serve B ap calls) (s, cls, outs) cmds' w' o ->
    exists outs', snd w' = (outs ++ outs')%list /\
      (o = Ok tt -> mirrors (acts E d c l) w' /\
         Forall2 (done txt pure oidf' E d (cl_made (acts E d c l)) (built (snd w'))) l outs') /\
      (forall e, o = Err e -> exists l1 a l2, l = (l1 ++ a :: l2)%list /\ mirrors (acts E d c l1) w' /\
         Forall2 (done txt pure oidf' E d (cl_made (acts E d c l1)) (built (snd w'))) l1 outs' /\
         refused txt pure oidf' E d (cl_made (acts E d c l1)) (built (snd w')) B a e).
  Proof.
    induction l as [|a l IH]; intros c cmds cmds' s cls outs w' o Hh Hf Hr Hs Hm Hnm HK Hah Hof Hex.
    - destruct cmds; [|destruct Hr]. inversion Hs; subst. inversion Hex; subst. exists []. cbn [snd].
      split; [now rewrite app_nil_r|]. split; [auto|discriminate].
    - destruct cmds as [|cmd cmds]; [destruct Hr|]. destruct Hr as [Hr Hrl]. destruct Hf as [Hf Hfl].
      inversion Hs as [|x cmd' y cmds2 Hsc Hscs]; subst x y cmds'. clear Hs.
      change (acts E d c (a :: l)) with (acts E d (act E d c a) l) in *.
      assert (Hstep : (counter (cl_reg (act E d c a)) <= K)%Z) by (pose proof (counter_acts l (act E d c a)); lia).
      assert (Hnc : named_so c) by exact (named_back (a :: l) c Hh Hnm).
      destruct (serve_step K c a l cmd cmd' s cls outs) as [(o1 & s1 & cls1 & E1 & Hm1 & Hah1 & Hd1)|(e & E1 & Hrf)]; auto.
      { intros. subst a. destruct Hof as [Hof _]. eapply Hof. now left. }
      { intros r cl m sg args kw path Ha Hin. destruct Hof as [_ Hof]. subst a. eapply Hof; [now left|].
        destruct (made_acts (Call r cl m sg args kw :: l) c) as (more & ->). apply in_or_app. eauto. }
      + inversion Hex as [|? ? ? w1 cc w2 o2 Eb Hex'|? ? ? w1 cc e2 Eb]; subst; rewrite E1 in Eb; [|discriminate].
        injection Eb as <- _.
        destruct (IH (act E d c a) cmds cmds2 s1 cls1 (outs ++ [o1])%list w' o) as (outs' & X1 & X2 & X3); auto.
        { now apply holds_act. }
        { destruct Hof as [O1 O2]. split; [intros; eapply O1; right; eauto | intros; eapply O2; [right; eauto | eauto]]. }
        exists (o1 :: outs'). rewrite <- app_assoc in X1. cbn [app] in X1. split; [exact X1|].
        assert (Hb : built (snd w') = (built (outs ++ [o1]) ++ built outs')%list).
        { rewrite X1. change (o1 :: outs') with ([o1] ++ outs')%list. now rewrite app_assoc, built_app. }
        split.
        * intros Ho. destruct (X2 Ho) as [X4 X5]. split; [exact X4|]. constructor; [|exact X5].
          destruct (made_acts l (act E d c a)) as (more & ->). rewrite Hb. now apply done_more.
        * intros e Ho. destruct (X3 e Ho) as (l1 & a1 & l2 & -> & Y1 & Y2 & Y3).
          exists (a :: l1), a1, l2. change (acts E d c (a :: l1)) with (acts E d (act E d c a) l1).
          split; [reflexivity|]. split; [exact Y1|]. split; [|exact Y3]. constructor; [|exact Y2].
          destruct (made_acts l1 (act E d c a)) as (more & ->). rewrite Hb. now apply done_more.
      + inversion Hex as [|? ? ? w1 cc w2 o2 Eb Hex'|? ? ? w1 cc e2 Eb]; subst; rewrite E1 in Eb; [discriminate|].
        injection Eb as <- _ <-. exists []. cbn [snd]. split; [now rewrite app_nil_r|]. split; [discriminate|].
        intros e0 He. injection He as <-. exists [], a, l. cbn [acts fold_left app].
        split; [reflexivity|]. split; [exact Hm|]. split; [constructor | exact Hrf].
  Qed.
End Server.

(** ** Through the file *)
Section File.
  Context (E : cenv) (d : registry) (txt : string -> Z -> option jval) (pure : func -> value -> res value).

  Lemma entries_saved made oidf oidf' (p : dict string value) :
    (forall k v, In (k, v) p -> is_object v = true \/ sendable txt pure made v) ->
    exists e, Forall2 (fun kv kj => exists x, saved1 pure oidf' kv = Ok (fst kj, x) /\ encode txt oidf' x = Ok (snd kj))
                (id_map oidf p) e /\ dkeys e = map (fun kv => skey pure (fst kv) (snd kv)) p.
  Proof.
    induction p as [|[k v] p IH]; intros H; [exists []; split; [constructor|reflexivity]|].
    destruct IH as (e & He & Hk). { intros k0 v0 Hin. apply (H k0 v0). now right. }
    assert (Hj : exists j x, saved1 pure oidf' (k, id_value oidf v) = Ok (skey pure k v, x) /\ encode txt oidf' x = Ok j).
    { specialize (H k v (or_introl eq_refl)). unfold saved1. cbn [fst snd].
      destruct v; cbn [id_value is_object bind skey] in *;
        try (destruct H as [H|H]; [discriminate|]; cbn [sendable] in H; destruct (H oidf') as (j & Hj); exists j;
             eexists; split; [reflexivity | exact Hj]; fail).
      - eexists. eexists. split; reflexivity.
      - destruct H as [H|(x & Hx & Hj)]; [discriminate|]. rewrite Hx. cbn [bind].
        destruct x; try (destruct (Hj oidf') as (j & Hj'); exists j; eexists; (split; [reflexivity | exact Hj']); fail).
        exists (JInt (oidf' r)). eexists. split; reflexivity. }
    destruct Hj as (j & x & Hj1 & Hj2). exists ((skey pure k v, j) :: e). split; [|cbn; unfold dkeys in Hk; now rewrite Hk].
    cbn [id_map map fst snd]. constructor; [|exact He]. exists x. auto.
  Qed.

  Lemma record_saveable c a cmd oidf' : fine txt pure E d c a -> records E d c a cmd ->
    saveable txt pure oidf' cmd /\ slash_free cmd /\
    exists z, dget (c_params cmd) "id" = Some (VOid z) \/ dget (c_params cmd) "id" = Some (VInt z).
  Proof.
    intros Hf (p & Hp & Rc & Rm & Rp).
    destruct (fine_args_of E d txt pure c a Hf) as (Hs & Hkw & _ & (bound & Hb & Hbd) & p' & Hp' & Hsend).
    rewrite Hp in Hp'. injection Hp' as <-.
    destruct (recorded_shape pure E d _ _ _ _ bound p Hs Hkw Hb Hp) as (Np & _ & _ & _ & _ & _ & Hap).
    { intros k v H. destruct (Hbd k v H) as [|(cl & r & path & -> & _ & H2)]; eauto. }
    unfold recorded_parameters in Hp. destruct (check_parameters_get _ _ _ _ _ Hp) as [Hk Hc].
    split; [|split].
    - unfold saveable. rewrite Rp. destruct (entries_saved _ (oid_in (cl_reg (act E d c a))) oidf' p Hsend) as (e & He & Hke).
      exists e. split; [exact He|]. rewrite Hke. now apply skeys_nodup.
    - unfold slash_free. rewrite Rc, Rm. destruct a; cbn in Hf |- *; tauto.
    - destruct (build_get (id_of_act c a) (sg_of a) (args_of a) (kw_of a) bound Hs Hkw Hb) as (Gid & _).
      pose proof (Hc "id") as H1. rewrite Gid in H1. destruct H1 as (v' & Hv' & _ & Hann).
      assert (Ha : dget (annotations (s_params (sg_of a))) "id" = None).
      { apply dget_none. intros H. apply annotations_keys in H. apply in_map_iff in H as (q & Eq & Hq).
        destruct Hs as (_ & Hv & _). destruct (Hv q Hq) as [Hn _]. congruence. }
      rewrite (Hann Ha) in Hv'. exists (id_of_act c a). left. rewrite Rp, id_map_get, Hv'. reflexivity.
  Qed.

  Lemma records_saveable oidf' l : forall c cmds, fine_session txt pure E d c l -> records_all E d c l cmds ->
    length cmds = length l /\
    forall cmd, In cmd cmds -> saveable txt pure oidf' cmd /\ slash_free cmd /\
      exists z, dget (c_params cmd) "id" = Some (VOid z) \/ dget (c_params cmd) "id" = Some (VInt z).
  Proof.
    induction l as [|a l IH]; intros c [|m cmds] Hf Hr; try (destruct Hr; fail).
    - split; [reflexivity|]. intros ? [].
    - destruct Hf as [Hf Hfl]. destruct Hr as [Hr Hrl]. destruct (IH _ _ Hfl Hrl) as [I1 I2].
      split; [cbn; now rewrite I1|]. intros cmd [<-|Hin]; [eapply record_saveable; eauto | auto].
  Qed.

  Lemma loaded_commands oidf' cmds es n :
    (forall cmd, In cmd cmds -> slash_free cmd) -> Forall2 (written txt pure oidf') cmds es ->
    Forall2 (same_command txt pure oidf') cmds (loaded_from n es).
  Proof.
    intros Hsf Hw. revert n. induction Hw as [|c e l l' Hce Hw IH]; intros n; cbn [loaded_from]; constructor.
    - unfold same_command. cbn [c_class c_method c_params]. destruct Hce as (M & _ & P). split.
      + rewrite M, <- (split_method_text c) by (apply Hsf; now left). now destruct (split_method (method_text c)).
      + clear - P. induction P as [|kv kj p q (x & H1 & H2) P IH]; constructor; auto.
        exists x, (snd kj). auto.
    - apply IH. intros cmd Hin. apply Hsf. now right.
  Qed.
  Lemma written_ids oidf' cmds es :
    (forall cmd, In cmd cmds -> exists z, dget (c_params cmd) "id" = Some (VOid z) \/ dget (c_params cmd) "id" = Some (VInt z)) ->
    Forall2 (written txt pure oidf') cmds es -> forall e, In e es -> has_id e.
  Proof.
    intros H Hw. induction Hw as [|c e l l' Hce Hw IH]; intros e0 []; [subst e0|].
    - destruct (H c (or_introl eq_refl)) as (z & [Hz|Hz]); eapply written_has_id; eauto.
    - apply IH; auto. intros cmd Hin. apply H. now right.
  Qed.

  Lemma session c l sS rsS B ap apS calls fuel s' rs' cls outs o :
    starting c -> fine_session txt pure E d c l -> l <> [] ->
    ready sS -> recording rsS = true ->
    offers B c l E d -> in_step B c (acts E d c l) rsS l ->
    (forall f v, apS f v = ([], pure f v)) -> (length l <= fuel)%nat ->
    let c' := acts E d c l in
    exists file, save_queue txt apS (oid_in (cl_reg c')) fuel (cl_sys c') None = (cl_sys c', Ok file) /\
      (playback B ap calls rsS sS file = (s', (rs', cls, outs), o) ->
       (o = Ok tt ->
          Forall2 (done txt pure (oid_in (cl_reg c')) E d (cl_made c') (built outs)) l outs /\
          NoDup (built outs) /\ length (built outs) = length (cl_made c') /\
          forall r path R, stands_for (cl_made c') (built outs) r path R ->
            lookup rs' (oid_in (cl_reg c') r) = Some R /\ id_of rs' R = Some (oid_in (cl_reg c') r)) /\
       (forall e, o = Err e -> exists l1 a l2, l = (l1 ++ a :: l2)%list /\
          Forall2 (done txt pure (oid_in (cl_reg c')) E d (cl_made (acts E d c l1)) (built outs)) l1 outs /\
          NoDup (built outs) /\ length (built outs) = length (cl_made (acts E d c l1)) /\
          (forall r path R, stands_for (cl_made (acts E d c l1)) (built outs) r path R ->
            lookup rs' (oid_in (cl_reg (acts E d c l1)) r) = Some R /\ id_of rs' R = Some (oid_in (cl_reg (acts E d c l1)) r)) /\
          refused txt pure (oid_in (cl_reg c')) E d (cl_made (acts E d c l1)) (built outs) B a e)).
  Proof.
    intros (Hmade & (h & Hh) & Hrec & Hnil & Hro) Hf Hl ((hS & HhS) & HroS) HrecS Hof Hin Hap Hfuel c'.
    assert (Hw : writable (cl_sys c)) by (split; [rewrite Hh; apply wf_history | auto]).
    destruct (acts_records E d txt pure l c Hw Hf) as (_ & _ & Hact & cmds & Hr & Hcmds). specialize (Hact Hl).
    rewrite Hnil in Hcmds. cbn [app] in Hcmds. fold c' in Hact, Hcmds. set (q := cur (cl_sys c)) in *.
    set (oidf' := oid_in (cl_reg c')).
    destruct (records_saveable oidf' l c cmds Hf Hr) as [Hlen Hsv].
    assert (Hne : commands (cl_sys c') q <> []).
    { rewrite Hcmds. destruct cmds; [|discriminate]. destruct l; [congruence|discriminate]. }
    destruct (save_exact txt pure apS oidf' Hap (cl_sys c') q fuel Hne) as (file & Hs & Hwr).
    { rewrite Hcmds. intros cmd Hc. now apply Hsv. } { rewrite Hcmds, Hlen. exact Hfuel. }
    rewrite Hcmds in Hwr.
    exists file. split.
    { rewrite <- Hs. unfold save_queue. unfold queue_or_active at 1, get_queue at 1. rewrite Hact.
      unfold queue_or_active at 1 2 3. destruct (commands (cl_sys c') q) as [|c0 l0] eqn:E0; [congruence|].
      unfold queue_or_active. rewrite E0. reflexivity. }
    intros Hplay. unfold playback, gsp_load in Hplay.
    destruct (get_active_spec sS) as (Hex & _ & Ha1 & Hl1 & Hq1 & _ & _). { rewrite HhS. apply wf_history. }
    assert (Hrd : readonly (fst (get_queue sS None)) (snd (get_queue sS None)) = false).
    { rewrite Hq1, (extends_readonly _ _ _ Hex). exact HroS. }
    destruct (get_queue sS None) as [s1 q1]. cbn [fst snd] in *.
    destruct (empty_effect s1 q1 Hl1) as (_ & _ & F3 & F4 & _ & _ & F7 & _).
    destruct (load_active (empty s1 q1) q1 file) as (s2 & Hload & Hc2 & _).
    { now rewrite F7. } { lia. } { now rewrite F3. }
    { apply (written_ids oidf' cmds); auto. intros cmd Hc. now apply Hsv. }
    rewrite Hload in Hplay. cbn [bind] in Hplay.
    assert (Hsame : Forall2 (same_command txt pure oidf') cmds (commands s2 q1)).
    { rewrite Hc2. apply loaded_commands; auto. intros cmd Hc. now apply Hsv. }
    assert (Hexec : executes (serve B ap calls) (mkR (counter rsS) (recording rsS) [] (heap rsS), fun _ => "", [])
                      (commands s2 q1) (rs', cls, outs) o).
    { unfold run_queue in Hplay. unfold commands.
      destruct (nth_error (qs s2) q1) as [x|] eqn:Ex.
      - destruct (run_loop (serve B ap calls) (set_ro s2 q1 true) (mkR (counter rsS) (recording rsS) [] (heap rsS), fun _ => "", []) (q_cmds x)) as [[s3 w3] o3] eqn:Erun.
        apply run_loop_executes in Erun.
        destruct o3 as [[]|e3]; injection Hplay as _ <- <-; exact Erun.
      - injection Hplay as _ <- <- <- <-. constructor. }
    assert (Hh0 : holds (cl_reg c) (cl_made c)) by (rewrite Hmade; split; [intros ? ? [] | constructor]).
    assert (Hm0 : mirrors c (mkR (counter rsS) (recording rsS) [] (heap rsS), fun _ => "", [])).
    { unfold mirrors. cbn [built flat_map]. split; [exact HrecS|]. rewrite Hmade. split; [reflexivity|]. split; [constructor|].
      intros r path R (n & H1 & _). destruct n; discriminate H1. }
    destruct (serve_all txt pure oidf' E d B ap calls (counter (cl_reg c')) l c cmds (commands s2 q1) _ _ _ _ o
                Hh0 Hf Hr Hsame Hm0 (fun r path _ => eq_refl) (Z.le_refl _) Hin Hof Hexec) as (outs' & X1 & X2 & X3).
    cbn [snd app] in X1, X2, X3. subst outs'. split.
    - intros Ho. destruct (X2 Ho) as [(_ & M1 & M2 & M3) X4]. split; [exact X4|]. split; [exact M2|]. split; [exact M1|].
      intros r path R HR. destruct (M3 r path R HR) as (Y1 & Y2 & _). auto.
    - intros e He. destruct (X3 e He) as (l1 & a & l2 & -> & (_ & M1 & M2 & M3) & Y2 & Y3). exists l1, a, l2.
      do 4 (split; [auto|]). split; [|exact Y3]. intros r path R HR. destruct (M3 r path R HR) as (Z1 & Z2 & _). auto.
  Qed.
End File.

(** ** Examples *)
Ltac each_param H := repeat destruct H as [<-|H]; try destruct H.
Ltac distinct := cbn; repeat first [apply NoDup_nil | apply NoDup_cons; [cbn; intuition discriminate|]].
Ltac valid_signature :=
  split; [distinct
         |split; [intros ? H; cbn in H; each_param H; (split; [discriminate | reflexivity])
                 |intros ? ? H; cbn in H; each_param H; discriminate]].
Ltac sent := first [left; reflexivity
                   |right; cbn; first [eexists; split; [reflexivity|]; intros; eexists; reflexivity
                                      |intros; eexists; reflexivity]].
Ltac all_sent := eexists; split; [reflexivity|];
  let k := fresh in let v := fresh in let H := fresh in let Ek := fresh in let Ev := fresh in
  intros k v H; cbn in H; repeat destruct H as [H|H]; first [exfalso; exact H | injection H as Ek Ev; subst k v; sent].

Ltac found H := repeat match type of H with context [String.eqb ?a ?b] => destruct (String.eqb_spec a b) end;
  try discriminate H; injection H as <-.

Lemma a_canvas_fine c : fine no_text as_text two_classes str_to_color c a_canvas.
Proof.
  cbn [fine a_canvas]. split; [reflexivity|]. split; [reflexivity|]. split; [reflexivity|].
  split; [valid_signature|]. split; [distinct|].
  split; [intros ? ? H; cbn in H; each_param H; discriminate|]. split.
  - eexists. split; [reflexivity|]. intros k v H. left. cbn in H. found H; reflexivity.
  - all_sent.
Qed.
Lemma a_viewport_fine c r path : In (r, path) (cl_made c) -> fine no_text as_text two_classes str_to_color c (a_viewport r).
Proof.
  intros Hin. cbn [fine a_viewport]. split; [reflexivity|]. split; [reflexivity|]. split; [reflexivity|].
  split; [valid_signature|]. split; [distinct|].
  split; [intros ? ? H; cbn in H; each_param H; discriminate|]. split.
  - eexists. split; [reflexivity|]. intros k v H. cbn in H. found H; try (left; reflexivity).
    right. exists "Canvas", r, path. auto.
  - all_sent.
Qed.
Lemma a_render_fine c r path : In (r, path) (cl_made c) -> fine no_text as_text two_classes str_to_color c (a_render r).
Proof.
  intros Hin. cbn [fine a_render]. split; [eauto|]. split; [discriminate|]. split; [discriminate|].
  split; [reflexivity|]. split; [reflexivity|]. split; [reflexivity|].
  split; [valid_signature|]. split; [distinct|].
  split; [intros ? ? H; cbn in H; each_param H; discriminate|]. split.
  - eexists. split; [reflexivity|]. intros k v H. left. cbn in H. found H; reflexivity.
  - all_sent.
Qed.

Lemma starting_process rs : starting (mkClient rs sinit []).
Proof. split; [reflexivity|]. split; [exists []; reflexivity|]. repeat split. Qed.
Lemma ready_init : ready sinit.
Proof. split; [exists []; reflexivity | reflexivity]. Qed.
Lemma offers_willing c l E d : offers willing c l E d.
Proof. split; reflexivity. Qed.

Lemma out_of_step : exists c l file s' w,
  starting c /\ fine_session no_text as_text two_classes str_to_color c l /\ ready sinit /\ recording rinit = true /\
  offers willing c l two_classes str_to_color /\
  save_queue no_text saving (oid_in (cl_reg (acts two_classes str_to_color c l))) 3 (cl_sys (acts two_classes str_to_color c l)) None
    = (cl_sys (acts two_classes str_to_color c l), Ok file) /\
  playback willing as_text (fun _ => []) rinit sinit file = (s', w, Err KeyError).
Proof.
  exists used_process, late_session. do 3 eexists.
  split; [apply starting_process|]. split.
  { split; [apply a_canvas_fine|]. split; [eapply a_viewport_fine; left; reflexivity|].
    split; [eapply a_render_fine; left; reflexivity | exact I]. }
  split; [apply ready_init|]. split; [reflexivity|]. split; [apply offers_willing|].
  split; [vm_compute; reflexivity | vm_compute; reflexivity].
Qed.
Lemma in_step_case :
  let c := new_process in let l := a_session in
  starting c /\ fine_session no_text as_text two_classes str_to_color c l /\ ready sinit /\
  offers willing c l two_classes str_to_color /\ in_step willing c (acts two_classes str_to_color c l) rinit l /\
  exists file s' w, save_queue no_text saving (oid_in (cl_reg (acts two_classes str_to_color c l))) 3 (cl_sys (acts two_classes str_to_color c l)) None
    = (cl_sys (acts two_classes str_to_color c l), Ok file) /\
  playback willing as_text (fun _ => []) rinit sinit file = (s', w, Ok tt) /\
  snd w = [Built 0%nat "core.Canvas" [("width", VInt 512); ("height", VInt 256); ("dpi", VFloat 100)];
           Built 1%nat "core.Viewport" [("canvas", VObj "core.Canvas" 0%nat); ("x", VInt 0); ("color", VSeq [VStr "red"; VFloat 3])];
           Called 0%nat "render" [("target", VStr "out.png")] VNone].
Proof.
  cbv zeta. split; [apply starting_process|]. split.
  { split; [apply a_canvas_fine|]. split; [eapply a_viewport_fine; left; reflexivity|].
    split; [eapply a_render_fine; left; reflexivity | exact I]. }
  split; [apply ready_init|]. split; [apply offers_willing|]. split.
  { right. split; [cbn; lia|]. intros cl path pre post sg args kw kws pre' post' H _.
    cbn in H. destruct H as [H|[H|[H|[]]]]; try discriminate H; injection H; intros; subst; lia. }
  do 3 eexists. split; [vm_compute; reflexivity|]. split; [vm_compute; reflexivity | reflexivity].
Qed.
Lemma load_loop_no_id l : forall s q e, In e l -> ~ has_id e -> snd (load_loop s q l) = Err ValueError.
Proof.
  induction l as [|x l IH]; intros s q e Hin H; [destruct Hin|]; destruct Hin as [Hin|Hin]; cbn [load_loop]; destruct (split_method _) as [cn mn]; unfold new_command, mk_command.
  - subst x. destruct (dmem (map _ (e_params e)) "id") eqn:D; [|reflexivity]. exfalso. apply H. unfold has_id. rewrite dmem_map in D. exact D.
  - destruct (dmem (map _ (e_params x)) "id"); [|reflexivity]. now apply (IH _ _ e).
Qed.
Lemma playback_no_id B ap calls rs s file e : In e file -> ~ has_id e ->
  exists s' rs' cls, playback B ap calls rs s file = (s', (rs', cls, []), Err ValueError).
Proof.
  intros Hin H. unfold playback, gsp_load. destruct (get_queue s None) as [s1 q]. unfold load_queue.
  destruct (queue_or_active (empty s1 q) None) as [s2 q2].
  pose proof (load_loop_no_id file (empty s2 q2) q2 e Hin H) as L. destruct (load_loop _ _ file) as [s3 o]. cbn in L. subst o. cbn. eauto.
Qed.
Lemma a_buffer_fine c : fine no_text its_buffer two_classes array_to_buffer c a_buffer.
Proof.
  cbn [fine a_buffer]. split; [reflexivity|]. split; [reflexivity|]. split; [reflexivity|].
  split; [valid_signature|]. split; [distinct|].
  split; [intros ? ? K; cbn in K; each_param K; discriminate|].
  split; [eexists; split; [reflexivity|]; intros k v K; cbn in K; found K; left; reflexivity|all_sent].
Qed.
Lemma some_points_fine c path : In (0%nat, path) (cl_made c) -> fine no_text its_buffer two_classes array_to_buffer c some_points.
Proof.
  intros Hin. cbn [fine some_points]. split; [reflexivity|]. split; [reflexivity|]. split; [reflexivity|].
  split; [valid_signature|]. split; [distinct|].
  split; [intros ? ? K; cbn in K; each_param K; discriminate|].
  split; [eexists; split; [reflexivity|]; intros k v K; cbn in K; found K; left; reflexivity|].
  eexists. split; [reflexivity|]. intros k v K. right. cbn in K.
  repeat (destruct K as [K|K]; [injection K as <- <-; cbn; try (eexists; split; [reflexivity|]; exists path; exact Hin); intros ?; eexists; reflexivity|]). destruct K.
Qed.
Lemma array_case :
  let c := new_process in let l := array_session in
  starting c /\ fine_session no_text its_buffer two_classes array_to_buffer c l /\ ready sinit /\
  offers willing c l two_classes array_to_buffer /\ in_step willing c (acts two_classes array_to_buffer c l) rinit l /\
  exists file s' w, save_queue no_text finding (oid_in (cl_reg (acts two_classes array_to_buffer c l))) 2 (cl_sys (acts two_classes array_to_buffer c l)) None
    = (cl_sys (acts two_classes array_to_buffer c l), Ok file) /\
  playback willing its_buffer (fun _ => []) rinit sinit file = (s', w, Ok tt) /\
  snd w = [Built 0%nat "core.Buffer" [("count", VInt 2); ("dtype", VStr "float32"); ("data", VStr "AAECAwQFBgc=")];
           Built 1%nat "visual.Points" [("positions", VObj "core.Buffer" 0%nat); ("sizes", VFloat 25)]].
Proof.
  cbv zeta. split; [apply starting_process|]. split.
  { split; [apply a_buffer_fine|]. split; [eapply some_points_fine; left; reflexivity|exact I]. }
  split; [apply ready_init|]. split.
  { split; [reflexivity|]. intros; reflexivity. }
  split.
  { right. split; [cbn; lia|]. intros cl path pre post sg args kw kws pre' post' H _.
    cbn in H. destruct H as [H|[H|[]]]; try discriminate H; injection H; intros; subst; lia. }
  do 3 eexists. split; [vm_compute; reflexivity|]. split; [vm_compute; reflexivity | reflexivity].
Qed.
