(** Proofs about swizzles. *)
From Verif Require Import Base Swizzle SwizzleSpec.

(** * Names *)
Lemma index_of_nth s c k : NoDup s -> nth_error s k = Some c -> index_of s c = k.
Proof.
  intros Hn. revert k. induction Hn as [|a s Ha Hs IH]; intros [|k] E; cbn in E; try discriminate.
  - injection E as ->. cbn. now rewrite Ascii.eqb_refl.
  - cbn. destruct (Ascii.eqb_spec a c) as [->|_].
    + destruct Ha. now apply nth_error_In in E.
    + now rewrite (IH k E).
Qed.
Lemma index_of_in (s : list ascii) c : In c s -> nth_error s (index_of s c) = Some c.
Proof.
  induction s as [|a s IH]; [easy|]. cbn. destruct (Ascii.eqb_spec a c) as [->|N]; [reflexivity|].
  intros [->|H]; [congruence|]. now apply IH.
Qed.
Lemma subset_spec key s : subset key s = true <-> incl key s.
Proof.
  unfold subset. rewrite forallb_forall. split; intros H c Hc.
  - apply H in Hc. apply existsb_exists in Hc. destruct Hc as [d [Hd E]]. apply Ascii.eqb_eq in E. now subst.
  - apply existsb_exists. exists c. split; [now apply H|apply Ascii.eqb_refl].
Qed.
Lemma named_incl (s key : list ascii) (l : list nat) : Forall2 (fun c k => nth_error s k = Some c) key l -> incl key s.
Proof.
  induction 1 as [|c k key l E _ IH]; [easy|]. intros x [<-|Hx]; [now apply nth_error_In in E|now apply IH].
Qed.
Lemma named_index s key l : NoDup s -> Forall2 (fun c k => nth_error s k = Some c) key l ->
  map (index_of s) key = l.
Proof.
  intros Hn. induction 1 as [|c k key l E _ IH]; [reflexivity|]. cbn. rewrite IH. f_equal. now apply index_of_nth.
Qed.
Lemma index_named s key : incl key s -> Forall2 (fun c k => nth_error s k = Some c) key (map (index_of s) key).
Proof.
  induction key as [|c key IH]; intros H; cbn; constructor.
  - apply index_of_in. apply H. now left.
  - apply IH. intros x Hx. apply H. now right.
Qed.

Lemma alphabets_nodup n s : In s (alphabets n) -> NoDup s.
Proof.
  destruct n as [|[|[|[|[|n]]]]]; cbn; try tauto; intros [<-|[<-|[]]];
    repeat (constructor; [cbn; intuition discriminate|]); constructor.
Qed.
Lemma alphabets_length n s : In s (alphabets n) -> length s = n.
Proof.
  destruct n as [|[|[|[|[|n]]]]]; cbn; try tauto; intros [<-|[<-|[]]]; reflexivity.
Qed.
Lemma alphabets_disjoint n s s' c : In s (alphabets n) -> In s' (alphabets n) -> In c s -> In c s' -> s = s'.
Proof.
  destruct n as [|[|[|[|[|n]]]]]; cbn; try tauto;
    intros [<-|[<-|[]]] [<-|[<-|[]]] H H'; try reflexivity; cbn in H, H'; exfalso;
    repeat (destruct H as [<-|H]; [intuition discriminate|]); exact H.
Qed.

Lemma indices_some sw key l : indices sw key = Some l ->
  exists s, In s sw /\ incl key s /\ l = map (index_of s) key.
Proof.
  induction sw as [|s r IH]; [discriminate|]. cbn. destruct (subset key s) eqn:E.
  - intros H. injection H as <-. exists s. apply subset_spec in E. auto.
  - intros H. apply IH in H. destruct H as [s' [H1 H2]]. exists s'. auto.
Qed.
Lemma indices_none sw key : indices sw key = None -> forall s, In s sw -> ~ incl key s.
Proof.
  induction sw as [|s r IH]; [easy|]. cbn. destruct (subset key s) eqn:E; [discriminate|].
  intros H s' [<-|Hs]; [|now apply IH]. intros C. apply subset_spec in C. congruence.
Qed.
Lemma indices_names n key l : indices (alphabets n) key = Some l <-> names n key l /\ alphabets n <> [].
Proof.
  split.
  - intros H. apply indices_some in H. destruct H as [s [H1 [H2 ->]]]. split.
    + exists s. split; [exact H1|now apply index_named].
    + intros C. rewrite C in H1. destruct H1.
  - intros [[s [Hs Hl]] Hne]. destruct (indices (alphabets n) key) as [l'|] eqn:E.
    + f_equal. apply indices_some in E. destruct E as [s' [Hs' [Hi ->]]].
      destruct key as [|c key]; [inversion Hl; reflexivity|].
      assert (s' = s).
      { apply (alphabets_disjoint n s' s c); auto; [apply Hi; now left|].
        apply (named_incl _ _ _ Hl). now left. }
      subst s'. apply named_index; auto. now apply alphabets_nodup in Hs.
    + exfalso. exact (indices_none _ _ E s Hs (named_incl _ _ _ Hl)).
Qed.
Lemma alphabets_some n : 2 <= n <= 4 -> alphabets n <> [].
Proof. intros H. destruct n as [|[|[|[|[|n]]]]]; try discriminate; lia. Qed.
Lemma names_indices {A} (v : vecs A) key l : vector v -> names (ncomp v) key l ->
  indices (alphabets (ncomp v)) key = Some l.
Proof. intros Hv H. apply indices_names. split; [exact H|now apply alphabets_some]. Qed.
Lemma names_bound n key l k : names n key l -> In k l -> k < n.
Proof.
  intros [s [Hs Hl]] Hk. rewrite <- (alphabets_length n s Hs).
  induction Hl as [|c k' key l E _ IH]; [destruct Hk|].
  destruct Hk as [<-|Hk]; [apply nth_error_Some; congruence|now apply IH].
Qed.
Lemma names_length n key l : names n key l -> length l = length key.
Proof. intros [s [_ Hl]]. induction Hl; cbn; congruence. Qed.
Lemma Forall2_in_r {X Y} (P : X -> Y -> Prop) l l' y : Forall2 P l l' -> In y l' -> exists x, In x l /\ P x y.
Proof.
  induction 1 as [|a b l l' H _ IH]; [easy|]. intros [<-|Hy]; [exists a; split; [now left|exact H]|].
  apply IH in Hy. destruct Hy as [x [Hx Hp]]. exists x. split; [now right|exact Hp].
Qed.
Lemma names_nodup n key l : names n key l -> NoDup key -> NoDup l.
Proof.
  intros [s [Hs Hl]] Hk. revert Hk. induction Hl as [|c k key l E Hl IH]; intros Hk; [constructor|].
  inversion Hk; subst. constructor; [|now apply IH].
  intros Hin. destruct (Forall2_in_r _ _ _ _ Hl Hin) as [c' [Hc' E']]. congruence.
Qed.

(** * Reading *)
Lemma read_ok {A} (v : vecs A) key l : vector v -> names (ncomp v) key l ->
  exists r, getattr (alphabets (ncomp v)) v key = Ok r /\ shows_components v r l.
Proof.
  intros Hv Hn. unfold getattr. rewrite (names_indices v key l Hv Hn).
  assert (Hb : forallb (fun k => k <? ncomp v) l = true).
  { apply forallb_forall. intros k Hk. apply Nat.ltb_lt. exact (names_bound _ _ _ _ Hn Hk). }
  rewrite Hb. eexists. split; [reflexivity|]. split; [reflexivity|]. split; [reflexivity|].
  intros i j k E. cbn. now rewrite (nth_error_nth _ _ 0 E).
Qed.
Lemma read_error {A} (v : vecs A) key : (forall l, ~ names (ncomp v) key l) ->
  getattr (alphabets (ncomp v)) v key = Err AttributeError.
Proof.
  intros H. unfold getattr. destruct (indices _ key) as [l|] eqn:E; [|reflexivity].
  exfalso. apply indices_names in E. now apply (H l).
Qed.

(** * Writing *)
Lemma assign_all_spec {A} (ws : list (nat * arr A)) : forall v : vecs A,
  NoDup (map fst ws) ->
  (forall k w, In (k, w) ws -> k < ncomp v /\ bcast_ok (rev (lead v)) (rev (shape w)) = true) ->
  exists v', assign_all v ws = (v', Ok tt) /\ lead v' = lead v /\ ncomp v' = ncomp v /\
    (forall k w, In (k, w) ws -> forall i,
       comp v' i k = at_ w (rev (bcast_index (rev i) (rev (shape w))))) /\
    (forall c, ~ In c (map fst ws) -> forall i, comp v' i c = comp v i c).
Proof.
  induction ws as [|[k w] ws IH]; intros v Hn Hok.
  - exists v. cbn. intuition.
  - cbn [map fst] in Hn. inversion Hn as [|? ? Hk Hn']; subst.
    destruct (Hok k w (or_introl eq_refl)) as [Hlt Hb].
    cbn [assign_all]. unfold assign. destruct (Nat.ltb_spec k (ncomp v)) as [_|]; [|lia]. cbn [negb]. rewrite Hb.
    set (v1 := mkVecs _ _ _).
    destruct (IH v1 Hn') as [v' [E [El [En [Hin Hout]]]]].
    { intros k' w' Hin. apply (Hok k' w'). now right. }
    exists v'. split; [exact E|]. split; [exact El|]. split; [exact En|]. split.
    + intros k' w' [Heq|Hin'] i.
      * injection Heq as <- <-. rewrite (Hout k Hk). unfold v1. cbn. now rewrite Nat.eqb_refl.
      * now apply Hin.
    + intros c Hc i. cbn [map fst In] in Hc. rewrite (Hout c) by tauto. unfold v1. cbn.
      destruct (Nat.eqb_spec c k); [|reflexivity]. subst. tauto.
Qed.

Lemma assign_all_error {A} (ws : list (nat * arr A)) (v : vecs A) s :
  (forall k w, In (k, w) ws -> k < ncomp v /\ shape w = s) ->
  forall v' e, assign_all v ws = (v', Err e) -> v' = v /\ e = ValueError.
Proof.
  intros Hok v' e. destruct ws as [|[k w] ws]; [discriminate|].
  destruct (bcast_ok (rev (lead v)) (rev s)) eqn:B.
  - (* every assignment succeeds *)
    assert (G : forall (ws : list (nat * arr A)) (v1 : vecs A), ncomp v1 = ncomp v -> lead v1 = lead v ->
              (forall k w, In (k, w) ws -> k < ncomp v /\ shape w = s) -> snd (assign_all v1 ws) = Ok tt).
    { clear - B. induction ws as [|[k w] ws IH]; intros v1 En El H; [reflexivity|].
      destruct (H k w (or_introl eq_refl)) as [Hk Hs]. cbn [assign_all]. unfold assign.
      rewrite En, El, Hs, B. destruct (Nat.ltb_spec k (ncomp v)); [|lia]. cbn [negb].
      apply IH; auto. intros. apply H. now right. }
    intros E. specialize (G _ v eq_refl eq_refl Hok). rewrite E in G. discriminate.
  - destruct (Hok k w (or_introl eq_refl)) as [Hk Hs]. cbn [assign_all]. unfold assign.
    rewrite Hs, B. destruct (Nat.ltb_spec k (ncomp v)); [|lia]. cbn [negb]. intros E. now injection E as <- <-.
Qed.

Lemma bcast_same s : bcast_ok (rev s) (rev s) = true.
Proof.
  induction (rev s) as [|d r IH]; [reflexivity|]. cbn. rewrite IH, Nat.eqb_refl, orb_true_r. reflexivity.
Qed.
Lemma Forall2_rev {X Y} (P : X -> Y -> Prop) l l' : Forall2 P l l' -> Forall2 P (rev l) (rev l').
Proof.
  induction 1; cbn; [constructor|]. apply Forall2_app; auto.
Qed.
Lemma bcast_index_same i s : in_shape s i -> rev (bcast_index (rev i) (rev s)) = i.
Proof.
  intros H. apply Forall2_rev in H. rewrite <- (rev_involutive i) at 2. f_equal.
  induction H as [|x d i' s' Hx _ IH]; [reflexivity|]. cbn. rewrite IH. f_equal.
  destruct (Nat.eqb_spec d 1); lia.
Qed.

Lemma ravel_bound s : forall i, in_shape s i -> ravel_index s i < prodn s.
Proof.
  induction s as [|d s IH]; intros i H; inversion H; subst; [cbn; lia|].
  match goal with H : Forall2 lt _ s |- _ => apply IH in H end. cbn [ravel_index prodn fold_right].
  fold (prodn s). nia.
Qed.
Lemma unravel_ravel s : forall i, in_shape s i -> unravel_index s (ravel_index s i) = i.
Proof.
  induction s as [|d s IH]; intros i H; inversion H as [|x ? i' ? Hx Hi]; subst; [reflexivity|].
  cbn [ravel_index unravel_index]. pose proof (ravel_bound s i' Hi) as Hb.
  rewrite (Nat.add_comm (x * _)), Nat.div_add, Nat.mod_add by lia.
  rewrite Nat.div_small, Nat.mod_small by lia. now rewrite (IH i' Hi).
Qed.

Lemma combine_fst {X Y} (l : list X) (l' : list Y) : length l = length l' -> map fst (combine l l') = l.
Proof.
  revert l'. induction l as [|x l IH]; intros [|y l'] H; try discriminate; [reflexivity|].
  cbn. rewrite IH; auto.
Qed.
Lemma in_combine_nth {X Y} (l : list X) (l' : list Y) j x y :
  nth_error l j = Some x -> nth_error l' j = Some y -> In (x, y) (combine l l').
Proof.
  revert l' j. induction l as [|a l IH]; intros [|b l'] [|j] E E'; cbn in *; try discriminate.
  - injection E as ->. injection E' as ->. now left.
  - right. eapply IH; eauto.
Qed.
Lemma nth_error_map_seq {X} (f : nat -> X) n j : j < n -> nth_error (map f (seq 0 n)) j = Some (f j).
Proof.
  intros H. rewrite nth_error_map. rewrite (nth_error_nth' _ 0) by (rewrite seq_length; lia).
  rewrite seq_nth by lia. reflexivity.
Qed.

(** A loop with one array per named component, all of the shape of the elements. *)
Lemma loop_items {A} (v : vecs A) l (f : nat -> arr A) (g : list nat -> nat -> A) :
  (forall k, In k l -> k < ncomp v) -> NoDup l ->
  (forall j, j < length l -> bcast_ok (rev (lead v)) (rev (shape (f j))) = true) ->
  (forall j i, j < length l -> in_shape (lead v) i ->
     at_ (f j) (rev (bcast_index (rev i) (rev (shape (f j))))) = g i j) ->
  exists v', assign_all v (combine l (map f (seq 0 (length l)))) = (v', Ok tt) /\ sets_exactly v v' l g.
Proof.
  intros Hb Hn Hok Hg.
  assert (Hlen : length l = length (map f (seq 0 (length l)))) by now rewrite map_length, seq_length.
  destruct (assign_all_spec (combine l (map f (seq 0 (length l)))) v) as [v' [E [El [En [Hin Hout]]]]].
  - now rewrite combine_fst.
  - intros k w Hin. split; [apply Hb; now apply in_combine_l in Hin|].
    apply in_combine_r in Hin. apply in_map_iff in Hin. destruct Hin as [j [<- Hj]].
    apply in_seq in Hj. apply Hok. lia.
  - exists v'. split; [exact E|]. split; [exact El|]. split; [exact En|]. intros i Hi. split.
    + intros j k Ej. assert (Hj : j < length l) by (apply nth_error_Some; congruence).
      rewrite (Hin k (f j)); [now apply Hg|]. apply (in_combine_nth _ _ j); auto. now apply nth_error_map_seq.
    + intros c Hc. apply Hout. now rewrite combine_fst.
Qed.
Lemma loop_same {A} (v : vecs A) l (w : arr A) (g : list nat -> nat -> A) :
  (forall k, In k l -> k < ncomp v) -> NoDup l ->
  bcast_ok (rev (lead v)) (rev (shape w)) = true ->
  (forall j i, j < length l -> in_shape (lead v) i ->
     at_ w (rev (bcast_index (rev i) (rev (shape w)))) = g i j) ->
  exists v', assign_all v (map (fun k => (k, w)) l) = (v', Ok tt) /\ sets_exactly v v' l g.
Proof.
  intros Hb Hn Hok Hg.
  replace (map (fun k => (k, w)) l) with (combine l (map (fun _ => w) (seq 0 (length l)))).
  - apply (loop_items v l (fun _ => w)); auto.
  - clear. generalize 0. induction l as [|k l IH]; intros n; [reflexivity|]. cbn. now rewrite IH.
Qed.

Section Write.
  Context {A : Type} (v : vecs A) (key : list ascii) (l : list nat) (w : arr A).
  Hypothesis Hv : vector v.
  Hypothesis Hname : names (ncomp v) key l.
  Let sw := alphabets (ncomp v).
  Lemma Hidx : indices sw key = Some l.
  Proof. now apply names_indices. Qed.
  Lemma Hbound k : In k l -> k < ncomp v.
  Proof. exact (names_bound _ _ _ k Hname). Qed.

  Lemma setattr_nonscalar d r : shape w = d :: r -> setattr sw v key w =
    if vlen v =? prodn (shape w) then assign_all v (map (fun k => (k, squeeze w)) l)
    else if length key =? d then assign_all v (combine l (map (item w) (seq 0 (length l))))
    else if last (shape w) 0 =? length key then
      assign_all v (combine l (map (fun t =>
        if prodn (lead v) =? prodn (removelast (shape w))
        then reshape (column w t) (lead v) else column w t) (seq 0 (length l))))
    else (v, Err IndexError).
  Proof. intros H. unfold setattr. rewrite Hidx, H. reflexivity. Qed.

  Lemma write_scalar : NoDup key -> shape w = [] ->
    exists v', setattr sw v key w = (v', Ok tt) /\ sets_exactly v v' l (fun _ _ => at_ w []).
  Proof.
    intros Hn Hs. unfold setattr. rewrite Hidx, Hs. apply loop_same.
    - exact Hbound.
    - exact (names_nodup _ _ _ Hname Hn).
    - now rewrite Hs.
    - intros j i _ _. now rewrite Hs.
  Qed.

  Lemma write_components : NoDup key -> shape w = [length key] -> (length key <> vlen v \/ length key = 1) ->
    exists v', setattr sw v key w = (v', Ok tt) /\ sets_exactly v v' l (fun _ j => at_ w [j]).
  Proof.
    intros Hn Hs Hg. unfold setattr. rewrite Hidx, Hs. cbn [prodn fold_right]. rewrite Nat.mul_1_r, Nat.eqb_refl.
    pose proof (names_length _ _ _ Hname) as Hlen. pose proof (names_nodup _ _ _ Hname Hn) as Hnl.
    destruct (Nat.eqb_spec (vlen v) (length key)) as [E|E].
    - destruct Hg as [Hg|Hg]; [congruence|].
      assert (Hq : shape (squeeze w) = []) by (cbn; now rewrite Hs, Hg).
      apply loop_same; auto; [exact Hbound|now rewrite Hq|].
      intros j i Hj _. rewrite Hq. cbn. rewrite Hs, Hg. cbn. repeat f_equal. lia.
    - apply (loop_items v l (item w)); auto; [exact Hbound| |].
      + intros j _. cbn. now rewrite Hs.
      + intros j i Hj _. cbn. now rewrite Hs.
  Qed.

  Lemma write_rows d L : NoDup key -> lead v = d :: L -> shape w = lead v ++ [length key] ->
    prodn (shape w) <> d -> length key <> d ->
    exists v', setattr sw v key w = (v', Ok tt) /\ sets_exactly v v' l (fun i j => at_ w (i ++ [j])).
  Proof.
    intros Hn Hl Hs Hg1 Hg2.
    assert (Hd : exists r, shape w = d :: r) by (exists (L ++ [length key])%list; now rewrite Hs, Hl).
    destruct Hd as [r Hd]. rewrite (setattr_nonscalar d r Hd).
    assert (Hvl : vlen v = d) by (unfold vlen; now rewrite Hl). rewrite Hvl.
    destruct (Nat.eqb_spec d (prodn (shape w))); [congruence|].
    destruct (Nat.eqb_spec (length key) d); [congruence|].
    assert (Hlast : last (shape w) 0 = length key) by (rewrite Hs; apply last_last).
    assert (Hrl : removelast (shape w) = lead v) by (rewrite Hs; apply removelast_last).
    rewrite Hlast, Hrl, !Nat.eqb_refl.
    pose proof (names_length _ _ _ Hname) as Hlen. pose proof (names_nodup _ _ _ Hname Hn) as Hnl.
    apply (loop_items v l (fun t => reshape (column w t) (lead v))); auto; [exact Hbound| |].
    - intros j _. cbn. apply bcast_same.
    - intros j i Hj Hi. cbn. rewrite Hrl. rewrite (bcast_index_same i (lead v) Hi).
      now rewrite unravel_ravel.
  Qed.

  Lemma write_column n : NoDup key -> lead v = [n] -> length key = 1 -> shape w = [n; 1] ->
    exists v', setattr sw v key w = (v', Ok tt) /\ sets_exactly v v' l (fun i j => at_ w (i ++ [j])).
  Proof.
    intros Hn Hl Hk Hs. unfold setattr. rewrite Hidx, Hs. cbn [prodn fold_right].
    assert (Hvl : vlen v = n) by (unfold vlen; now rewrite Hl). rewrite Hvl, !Nat.mul_1_r, Nat.eqb_refl. clear Hvl.
    pose proof (names_length _ _ _ Hname) as Hlen. pose proof (names_nodup _ _ _ Hname Hn) as Hnl.
    apply loop_same; auto; [exact Hbound| |].
    - unfold squeeze. cbn [shape]. rewrite Hs, Hl. cbn.
      destruct (Nat.eqb_spec n 1); cbn; [reflexivity|]. rewrite Nat.eqb_refl, orb_true_r. reflexivity.
    - intros j i Hj Hi. rewrite Hl in Hi. inversion Hi as [|x ? i' ? Hx Hi']; subst. inversion Hi'; subst.
      unfold squeeze. cbn [shape at_]. rewrite Hs. cbn.
      destruct (Nat.eqb_spec n 1) as [->|Hn1]; cbn; repeat f_equal; try lia.
      destruct (Nat.eqb_spec n 1); [congruence|]. cbn. repeat f_equal; lia.
  Qed.

  Lemma write_arrays d L : NoDup key -> lead v = d :: L -> shape w = length key :: lead v ->
    prodn (shape w) <> d ->
    exists v', setattr sw v key w = (v', Ok tt) /\ sets_exactly v v' l (fun i j => at_ w (j :: i)).
  Proof.
    intros Hn Hl Hs Hg1. rewrite (setattr_nonscalar _ _ Hs).
    assert (Hvl : vlen v = d) by (unfold vlen; now rewrite Hl). rewrite Hvl.
    destruct (Nat.eqb_spec d (prodn (shape w))); [congruence|]. rewrite Nat.eqb_refl.
    pose proof (names_length _ _ _ Hname) as Hlen. pose proof (names_nodup _ _ _ Hname Hn) as Hnl.
    apply (loop_items v l (item w)); auto; [exact Hbound| |].
    - intros j _. cbn. rewrite Hs. cbn. apply bcast_same.
    - intros j i Hj Hi. cbn. rewrite Hs. cbn [tl]. now rewrite (bcast_index_same i (lead v) Hi).
  Qed.

  (** One value per element, the same for all the named components. *)
  Lemma write_elements n : NoDup key -> lead v = [n] -> shape w = [n] ->
    exists v', setattr sw v key w = (v', Ok tt) /\ sets_exactly v v' l (fun i _ => at_ w i).
  Proof.
    intros Hn Hl Hs. unfold setattr. rewrite Hidx, Hs. cbn [prodn fold_right].
    assert (Hvl : vlen v = n) by (unfold vlen; now rewrite Hl). rewrite Hvl, !Nat.mul_1_r, Nat.eqb_refl. clear Hvl.
    pose proof (names_nodup _ _ _ Hname Hn) as Hnl.
    apply loop_same; auto; [exact Hbound| |].
    - unfold squeeze. cbn [shape]. rewrite Hs, Hl. cbn.
      destruct (Nat.eqb_spec n 1); cbn; [reflexivity|]. rewrite Nat.eqb_refl, orb_true_r. reflexivity.
    - intros j i Hj Hi. rewrite Hl in Hi. inversion Hi as [|x ? i' ? Hx Hi']; subst. inversion Hi'; subst.
      unfold squeeze. cbn [shape at_]. rewrite Hs. cbn.
      destruct (Nat.eqb_spec n 1) as [->|Hn1]; cbn; repeat f_equal; try lia.
      destruct (Nat.eqb_spec n 1); [congruence|]. reflexivity.
  Qed.

  (** Square blocks of rows are taken as one array per component. *)
  Lemma write_square n : NoDup key -> lead v = [n] -> length key = n -> 2 <= n -> shape w = [n; n] ->
    exists v', setattr sw v key w = (v', Ok tt) /\ sets_exactly v v' l (fun i j => at_ w (j :: i)).
  Proof.
    intros Hn Hl Hk Hn2 Hs. apply (write_arrays n []); auto; rewrite Hs.
    - now rewrite Hk, Hl.
    - cbn. nia.
  Qed.

  (** A single vector whose components are all given. *)
  Lemma write_single_all : lead v = [] -> shape w = [ncomp v] -> l <> [] ->
    setattr sw v key w = (v, Err ValueError).
  Proof.
    intros Hl Hs Hne. unfold setattr. rewrite Hidx, Hs. cbn [prodn fold_right].
    assert (Hvl : vlen v = ncomp v) by (unfold vlen; now rewrite Hl). rewrite Hvl, Nat.mul_1_r, Nat.eqb_refl.
    pose proof Hbound as Hb. destruct l as [|k l']; [congruence|]. cbn [map assign_all]. unfold assign.
    destruct (Nat.ltb_spec k (ncomp v)) as [_|C]; [|specialize (Hb k (or_introl eq_refl)); lia]. cbn [negb].
    rewrite Hl. unfold squeeze. cbn [shape]. rewrite Hs. unfold vector in Hv. cbn.
    destruct (Nat.eqb_spec (ncomp v) 1); [lia|]. cbn. destruct (Nat.eqb_spec (ncomp v) 1); [lia|]. reflexivity.
  Qed.

  (** Errors change nothing. *)
  Lemma write_error v' e : setattr sw v key w = (v', Err e) -> v' = v /\ (e = ValueError \/ e = IndexError).
  Proof.
    unfold setattr. rewrite Hidx. cbv beta iota.
    assert (Hsame : forall x v' e, assign_all v (map (fun k => (k, x)) l) = (v', Err e) -> v' = v /\ (e = ValueError \/ e = IndexError)).
    { intros x v1 e1 H. apply (assign_all_error _ v (shape x)) in H; [tauto|].
      intros k y Hin. apply in_map_iff in Hin. destruct Hin as [k' [E Hk]]. injection E as <- <-.
      split; [now apply Hbound|reflexivity]. }
    assert (Hcomb : forall f s v' e, (forall j, shape (f j) = s) ->
        assign_all v (combine l (map f (seq 0 (length l)))) = (v', Err e) -> v' = v /\ (e = ValueError \/ e = IndexError)).
    { intros f s v1 e1 Hf H. apply (assign_all_error _ v s) in H; [tauto|].
      intros k y Hin. split; [apply Hbound; now apply in_combine_l in Hin|].
      apply in_combine_r in Hin. apply in_map_iff in Hin. destruct Hin as [j [<- _]]. apply Hf. }
    destruct (shape w) as [|d r] eqn:S; [apply Hsame|].
    destruct (vlen v =? prodn (d :: r)); [apply Hsame|].
    destruct (length key =? d); [apply (Hcomb _ r); intros; cbn; now rewrite S|].
    destruct (last (d :: r) 0 =? length key).
    - destruct (prodn (lead v) =? prodn (removelast (d :: r)));
        [apply (Hcomb _ (lead v))|apply (Hcomb _ (removelast (d :: r)))]; intros; cbn [column reshape shape]; now rewrite ?S.
    - intros H. injection H as <- <-. auto.
  Qed.
End Write.

Lemma read_back {A} (v v' : vecs A) key l f : vector v -> names (ncomp v) key l -> sets_exactly v v' l f ->
  exists r, getattr (alphabets (ncomp v')) v' key = Ok r /\ lead r = lead v /\ ncomp r = length key /\
    forall i j, in_shape (lead v) i -> j < length key -> comp r i j = f i j.
Proof.
  intros Hv Hn [El [En Hs]].
  destruct (read_ok v' key l) as [r [E [R1 [R2 R3]]]]; [unfold vector in *; now rewrite En|now rewrite En|].
  exists r. split; [exact E|]. split; [congruence|]. rewrite <- (names_length _ _ _ Hn). split; [exact R2|].
  intros i j Hi Hj. destruct (nth_error l j) as [k|] eqn:Ej; [|apply nth_error_None in Ej; lia].
  rewrite (R3 i j k Ej). now apply (Hs i Hi).
Qed.

(** * Counterexamples *)
Lemma single_vector_witness :
  let v := mkVecs [] 4 (fun _ _ => 0) in let key := list_ascii_of_string "xyzw" in
  names 4 key [0; 1; 2; 3] /\ forall w : arr nat, shape w = [4] -> setattr (alphabets 4) v key w = (v, Err ValueError).
Proof.
  assert (N : names 4 (list_ascii_of_string "xyzw") [0; 1; 2; 3]).
  { eexists. split; [left; reflexivity|]. repeat constructor. }
  split; [exact N|]. intros w Hs.
  apply (write_single_all (mkVecs [] 4 (fun _ _ => 0)) (list_ascii_of_string "xyzw") [0; 1; 2; 3] w); auto.
  - split; cbn; lia.
  - discriminate.
Qed.
(** Two 2-component vectors, v.xy = 1, 2. *)
Lemma two_vectors_witness :
  let v := mkVecs [2] 2 (fun _ _ => 0) in
  let w := mkArr [2] (fun i => match i with [0] => 1 | _ => 2 end) in
  let r := fst (setattr (alphabets 2) v (list_ascii_of_string "xy") w) in
  snd (setattr (alphabets 2) v (list_ascii_of_string "xy") w) = Ok tt /\
  (comp r [0] 0, comp r [0] 1) = (1, 1) /\ (comp r [1] 0, comp r [1] 1) = (2, 2).
Proof. vm_compute. auto. Qed.
(** Two 2-component vectors, v.xy = [[1, 2], [3, 4]]. *)
Lemma square_witness :
  let v := mkVecs [2] 2 (fun _ _ => 0) in
  let w := mkArr [2; 2] (fun i => match i with [0; 0] => 1 | [0; 1] => 2 | [1; 0] => 3 | _ => 4 end) in
  let r := fst (setattr (alphabets 2) v (list_ascii_of_string "xy") w) in
  snd (setattr (alphabets 2) v (list_ascii_of_string "xy") w) = Ok tt /\
  (comp r [0] 0, comp r [0] 1) = (1, 3) /\ (comp r [1] 0, comp r [1] 1) = (2, 4).
Proof. vm_compute. auto. Qed.
(** No vector at all, v.xy = an empty block of rows. *)
Lemma empty_witness :
  let v := mkVecs [0] 2 (fun _ _ => 0) in
  setattr (alphabets 2) v (list_ascii_of_string "xy") (mkArr [0; 2] (fun _ => 0)) = (v, Err ValueError).
Proof. reflexivity. Qed.
