(** Proofs about Convert.v. *)
From Verif Require Import Base Convert ConvertSpec.
Open Scope string_scope.

Lemma register_one d s dst f :
  (dget d (s, dst) = None ->
     snd (register d (One s) dst f) = Ok f /\
     forall p, dget (fst (register d (One s) dst f)) p =
               if eqb p (s, dst) then Some f else dget d p) /\
  (dget d (s, dst) <> None -> register d (One s) dst f = (d, Err TypeError)).
Proof.
  cbn [register]. unfold dmem. split; intros H.
  - rewrite H. cbn [negb fst snd]. split; auto. intros p. apply dget_dset.
  - destruct (dget d (s, dst)); [reflexivity | congruence].
Qed.

Lemma unregister1_get d s dst p :
  dget (unregister1 d s dst) p = if eqb p (s, dst) then None else dget d p.
Proof.
  unfold unregister1, dmem. destruct (dget d (s, dst)) eqn:E.
  - apply dget_ddel.
  - destruct (eqb_spec p (s, dst)) as [->|]; auto.
Qed.

Lemma unregister_get d ss dst p :
  dget (unregister d ss dst) p =
  if existsb (fun s => eqb p (s, dst)) (match ss with One s => [s] | Many l => l end)
  then None else dget d p.
Proof.
  destruct ss as [s|l]; cbn [unregister].
  - rewrite unregister1_get. cbn [existsb]. now rewrite orb_false_r.
  - revert d; induction l as [|s l IH]; intros d; cbn [fold_left existsb]; auto.
    rewrite IH, unregister1_get. destruct (eqb p (s, dst)); cbn [orb]; auto.
    now destruct (existsb _ l).
Qed.

Definition step_pair (st : option func) (o : sop) : option func :=
  match o with
  | SReg _ _ f => match st with None => Some f | Some g => Some g end
  | SUnreg _ _ => None
  end.

Lemma crun_events h : forall d p,
  dget (crun d (map to_cop h)) p = fold_left step_pair (events p h) (dget d p).
Proof.
  induction h as [|o h IH]; intros d p; cbn [map crun fold_left events filter]; auto.
  unfold crun in IH. rewrite IH. unfold events. destruct o as [s dst f|s dst]; cbn [to_cop cstep on_pair].
  - destruct (register_one d s dst f) as [Hfree Hbusy].
    destruct (dget d (s, dst)) as [g|] eqn:E.
    + rewrite Hbusy by congruence. cbn [fst]. destruct (eqb_spec (s, dst) p) as [<-|Hn]; cbn [fold_left step_pair]; auto.
      now rewrite E.
    + destruct (Hfree eq_refl) as [_ Hg]. rewrite Hg.
      destruct (eqb_spec p (s, dst)) as [->|Hn].
      * rewrite eqb_refl. cbn [fold_left step_pair]. now rewrite E.
      * destruct (eqb_spec (s, dst) p); [congruence | auto].
  - cbn [unregister]. rewrite unregister1_get.
    destruct (eqb_spec p (s, dst)) as [->|Hn].
    + rewrite eqb_refl. reflexivity.
    + destruct (eqb_spec (s, dst) p); [congruence | auto].
Qed.

Lemma fold_some l g :
  existsb (fun o => match o with SUnreg _ _ => true | _ => false end) l = false ->
  fold_left step_pair l (Some g) = Some g.
Proof.
  induction l as [|o l IH]; cbn; auto. destruct o; cbn; [auto | discriminate].
Qed.
Lemma fold_unreg l st :
  existsb (fun o => match o with SUnreg _ _ => true | _ => false end) l = true ->
  fold_left step_pair l st = first_reg (after_last_unreg l).
Proof.
  revert st. induction l as [|o l IH]; intros st H; [discriminate|].
  destruct o as [s d f|s d]; cbn [existsb orb after_last_unreg fold_left] in *.
  - rewrite H. apply IH, H.
  - cbn [step_pair].
    destruct (existsb (fun o => match o with SUnreg _ _ => true | _ => false end) l) eqn:E.
    + apply IH. reflexivity.
    + clear IH H. destruct l as [|o l]; auto. destruct o as [s' d' f'|]; cbn [existsb orb] in E; [|discriminate].
      cbn [fold_left step_pair after_last_unreg]. rewrite E. cbn [first_reg]. now apply fold_some.
Qed.
Lemma fold_none l :
  fold_left step_pair l None = first_reg (after_last_unreg l).
Proof.
  destruct (existsb (fun o => match o with SUnreg _ _ => true | _ => false end) l) eqn:E.
  - now apply fold_unreg.
  - destruct l as [|o l]; auto. destruct o as [s' d' f'|]; cbn [existsb orb] in E; [|discriminate].
    cbn [fold_left step_pair after_last_unreg]. rewrite E. cbn [first_reg]. now apply fold_some.
Qed.
Lemma history_lookup h p :
  dget (crun [] (map to_cop h)) p = first_reg (after_last_unreg (events p h)).
Proof. rewrite crun_events. apply fold_none. Qed.

(** ** Several sources at once *)
Lemma register_many_spec l : forall d dst f,
  exists k, (k <= length l)%nat /\
    (forall p, dget (fst (register_many d l dst f)) p =
       if existsb (fun s => eqb p (s, dst)) (firstn k l) then Some f else dget d p) /\
    (snd (register_many d l dst f) = Ok f <-> k = length l) /\
    (k <> length l -> snd (register_many d l dst f) = Err TypeError /\
       exists s, nth_error l k = Some s /\
         (dget d (s, dst) <> None \/ In s (firstn k l))) /\
    (forall s, In s (firstn k l) -> dget d (s, dst) = None).
Proof.
  induction l as [|s l IH]; intros d dst f; cbn [register_many].
  - exists 0%nat. split; [auto|]. split; [reflexivity|]. split; [tauto|]. split; [intros []; reflexivity|].
    intros s [].
  - unfold dmem. destruct (dget d (s, dst)) as [g|] eqn:E; cbn [negb fst snd].
    + exists 0%nat. split; [lia|]. split; [reflexivity|]. split; [cbn; split; congruence|].
      split; [|intros ? []]. intros _. split; auto. exists s. split; [reflexivity|]. left; congruence.
    + destruct (IH (dset d (s, dst) f) dst f) as (k & Hk & Hget & Hok & Hbad & Hfree).
      assert (Hni : ~ In s (firstn k l)).
      { intros Hin. apply Hfree in Hin. rewrite dget_dset_same in Hin. discriminate. }
      exists (S k). split; [cbn; lia|]. split; [|split; [|split]].
      * intros p. rewrite Hget, dget_dset. cbn [firstn existsb].
        destruct (eqb p (s, dst)); cbn [orb]; [now destruct (existsb _ _) | reflexivity].
      * rewrite Hok. cbn. lia.
      * intros Hne. destruct Hbad as [He (s' & Hn & Hor)]; [cbn in Hne; lia|]. split; auto.
        exists s'. split; [exact Hn|]. cbn [firstn].
        destruct Hor as [Hor|Hor]; [|right; now right].
        rewrite dget_dset in Hor. destruct (eqb_spec (s', dst) (s, dst)) as [Ee|]; [|now left].
        right; left. congruence.
      * intros s' [<-|Hin]; auto. pose proof (Hfree s' Hin) as Hf.
        rewrite dget_dset in Hf. destruct (eqb (s', dst) (s, dst)); [discriminate | exact Hf].
Qed.

Lemma register_many_all d l dst f :
  NoDup l -> (forall s, In s l -> dget d (s, dst) = None) ->
  snd (register d (Many l) dst f) = Ok f /\
  forall p, dget (fst (register d (Many l) dst f)) p =
            if existsb (fun s => eqb p (s, dst)) l then Some f else dget d p.
Proof.
  intros Hnd Hfree. cbn [register].
  destruct (register_many_spec l d dst f) as (k & Hk & Hget & Hok & Hbad & _).
  destruct (Nat.eq_dec k (length l)) as [->|Hne].
  - rewrite firstn_all in Hget. split; [now apply Hok | exact Hget].
  - exfalso. destruct (Hbad Hne) as [_ (s & Hn & [H|H])].
    + apply H, Hfree. eapply nth_error_In; eauto.
    + rewrite <- (firstn_skipn k l) in Hnd.
      assert (In s (skipn k l)).
      { rewrite <- (firstn_skipn k l), nth_error_app2 in Hn by (rewrite firstn_length; lia).
        eapply nth_error_In; eauto. }
      clear - Hnd H H0. induction (firstn k l) as [|a m IH]; [destruct H|].
      cbn in Hnd. inversion Hnd as [|? ? Hni Hnd']; subst. destruct H as [->|H]; [|auto].
      apply Hni, in_or_app. now right.
Qed.

Lemma register_many_not_atomic : exists d l dst f,
  snd (register d (Many l) dst f) = Err TypeError /\
  exists p, dget (fst (register d (Many l) dst f)) p <> dget d p.
Proof.
  exists [(("b", "t"), 7)], ["a"; "b"], "t", 9. split; [reflexivity|]. exists ("a", "t"). discriminate.
Qed.

(** ** Lookup order *)
Lemma first_found_app d l1 l2 :
  first_found d (l1 ++ l2) =
  match first_found d l1 with Some f => Some f | None => first_found d l2 end.
Proof. induction l1 as [|p l IH]; cbn; auto. destruct (dget d p); auto. Qed.
Lemma from_bases_first d bases dst :
  from_bases d bases dst = first_found d (flat_map (fun b => [(b, dst); ("*", dst)]) bases).
Proof.
  induction bases as [|b r IH]; cbn [from_bases flat_map]; auto.
  rewrite first_found_app, <- IH. unfold is_registered. cbn [first_found].
  destruct (dget d (b, dst)); auto. now destruct (dget d ("*", dst)).
Qed.
Lemma get_converter_order d v dst n :
  (dst = DType n \/ dst = DStr n) ->
  get_converter d v dst = Ok (first_found d (candidates (src_of d v dst) (v_bases v) n)).
Proof.
  intros [->| ->]; unfold get_converter; rewrite from_bases_first; unfold candidates, is_registered;
    cbn [first_found]; destruct (dget d (_, n)); auto; destruct (dget d ("*", n)); auto.
Qed.
Lemma src_of_spec d v dst :
  (forall n, v_typename v = Some n -> src_of d v dst = n) /\
  (v_typename v = None ->
    (forall s n f, v_str v = Some s -> dst = DStr n ->
       (dget d (s, n) = Some f \/ dget d ("*", n) = Some f) -> src_of d v dst = s) /\
    (forall s n, v_str v = Some s -> dst = DStr n ->
       dget d (s, n) = None -> dget d ("*", n) = None -> src_of d v dst = v_class v) /\
    ((v_str v = None \/ forall n, dst <> DStr n) -> src_of d v dst = v_class v)).
Proof.
  unfold src_of, is_registered. split; [intros n ->; reflexivity|]. intros ->.
  split; [|split].
  - intros s n f -> -> [E|E]; [now rewrite E|]. rewrite E. now destruct (dget d (s, n)).
  - intros s n -> -> E1 E2. now rewrite E1, E2.
  - intros [->|H]; auto. destruct (v_str v), dst; auto. now specialize (H n).
Qed.
Lemma first_found_none d l : first_found d l = None <-> forall p, In p l -> dget d p = None.
Proof.
  induction l as [|p l IH]; cbn [first_found]; [split; [intros _ p [] | auto]|].
  destruct (dget d p) eqn:E.
  - split; [discriminate|]. intros H. rewrite (H p (or_introl eq_refl)) in E. discriminate.
  - rewrite IH. split; [intros H q [<-|Hq]; auto | intros H q Hq; apply H; now right].
Qed.
Lemma get_converter_none d v dst n :
  (dst = DType n \/ dst = DStr n) ->
  (get_converter d v dst = Ok None <->
   dget d (src_of d v dst, n) = None /\ dget d ("*", n) = None /\
   forall b, In b (v_bases v) -> dget d (b, n) = None).
Proof.
  intros H. rewrite (get_converter_order _ _ _ _ H).
  split.
  - intros E0. assert (E : first_found d (candidates (src_of d v dst) (v_bases v) n) = None) by congruence.
    rewrite first_found_none in E. unfold candidates in E.
    repeat split; [apply E; now left | apply E; right; now left |].
    intros b Hb. apply E. right; right. apply in_flat_map. exists b. split; auto. now left.
  - intros (H1 & H2 & H3). f_equal. apply first_found_none. intros p [<-|[<-|Hp]]; auto.
    apply in_flat_map in Hp as (b & Hb & [<-|[<-|[]]]); auto.
Qed.

Lemma convert_outcome {B} (apply : func -> pval -> res B) d v dst n :
  (dst = DType n \/ dst = DStr n) ->
  convert apply d v dst =
  match first_found d (candidates (src_of d v dst) (v_bases v) n) with
  | Some f => match apply f v with Ok b => Ok b | Err _ => Err ValueError end
  | None => Err ValueError
  end.
Proof.
  intros H. unfold convert. rewrite (get_converter_order _ _ _ _ H).
  destruct (first_found _ _); auto.
Qed.

(** ** Any history *)
Lemma existsb_pair (p : string * string) dst l : existsb (fun s => eqb p (s, dst)) l = true <-> exists s, In s l /\ p = (s, dst).
Proof.
  rewrite existsb_exists. split; intros (s & H & E); exists s; (split; [exact H|]).
  - now apply eqb_eq.
  - now apply eqb_eq.
Qed.
Lemma step_lookup d o p :
  (unregisters o p -> dget (cstep d o) p = None) /\
  (~ unregisters o p -> forall f, dget d p = Some f -> dget (cstep d o) p = Some f) /\
  (forall f, dget d p = None -> dget (cstep d o) p = Some f -> registers o p f).
Proof.
  destruct o as [[s|l] dst f|ss dst]; cbn [cstep unregisters registers].
  - destruct (register_one d s dst f) as [A B]. destruct (dget d (s, dst)) as [g|] eqn:E.
    + rewrite B by discriminate. cbn [fst]. split; [intros []|]. split; [auto|]. intros f' H1 H2. rewrite H1 in H2. discriminate.
    + destruct (A eq_refl) as [_ C]. rewrite C. split; [intros []|]. split.
      * intros _ f' H. destruct (eqb p (s, dst)) eqn:Ep; [|exact H]. apply eqb_eq in Ep. subst p. congruence.
      * intros f' H1 H2. destruct (eqb p (s, dst)) eqn:Ep; [|congruence]. apply eqb_eq in Ep. split; congruence.
  - destruct (register_many_spec l d dst f) as (k & Hk & A & _ & _ & F). rewrite A. split; [intros []|]. split.
    + intros _ f' H. destruct (existsb _ (firstn k l)) eqn:Ep; [|exact H]. apply existsb_pair in Ep.
      destruct Ep as (s & Hs & ->). rewrite (F s Hs) in H. discriminate.
    + intros f' H1 H2. destruct (existsb _ (firstn k l)) eqn:Ep; [|congruence]. apply existsb_pair in Ep.
      destruct Ep as (s & Hs & ->). split; [|congruence]. exists s. split; [|reflexivity].
      rewrite <- (firstn_skipn k l). apply in_or_app. now left.
  - rewrite unregister_get. destruct (existsb _ _) eqn:Ep.
    + apply existsb_pair in Ep. destruct Ep as (s & Hs & ->).
      assert (U : match ss with One s0 => (s, dst) = (s0, dst) | Many l => exists s0, In s0 l /\ (s, dst) = (s0, dst) end).
      { destruct ss as [s0|l]; [destruct Hs as [->|[]]; reflexivity|]. now exists s. }
      split; [reflexivity|]. split; [intros N; destruct ss; now destruct (N U)|]. discriminate.
    + assert (U : ~ match ss with One s0 => p = (s0, dst) | Many l => exists s0, In s0 l /\ p = (s0, dst) end).
      { intros U. assert (E : existsb (fun s => eqb p (s, dst)) (match ss with One s => [s] | Many l => l end) = true).
        { apply existsb_pair. destruct ss as [s0|l]; [exists s0; split; [now left|exact U]|exact U]. }
        congruence. }
      split; [intros H; destruct ss; now destruct (U H)|]. split; [auto|]. congruence.
Qed.
Lemma any_history ops o p : let d := crun [] ops in let d' := crun [] (ops ++ [o])%list in
  (unregisters o p -> dget d' p = None) /\
  (~ unregisters o p -> forall f, dget d p = Some f -> dget d' p = Some f) /\
  (forall f, dget d p = None -> dget d' p = Some f -> registers o p f).
Proof. cbv zeta. unfold crun. rewrite fold_left_app. apply step_lookup. Qed.
