(** Proofs about several viewports on one canvas. *)
From Verif Require Import Base Measure MeasureFacts Viewport ViewportSpec ViewportFacts Panes PanesSpec.
From Coq Require Import Lqa.
Local Open Scope Qc_scope.

Lemma snoc_case {A} (l : list A) i a x : nth_error (l ++ [a]) i = Some x ->
  nth_error l i = Some x \/ (i = length l /\ x = a).
Proof.
  intros H. destruct (Nat.lt_ge_cases i (length l)) as [K|K].
  - rewrite nth_error_app1 in H by exact K. auto.
  - rewrite nth_error_app2 in H by exact K. destruct (i - length l)%nat as [|n] eqn:E.
    + cbn in H. injection H as <-. right. split; [lia|reflexivity].
    + cbn in H. destruct n; discriminate.
Qed.

Section Facts.
  Context {C : Type}.
  Implicit Types (d : desk C) (l : list (act C)) (a : pane C).

  Lemma acts_app l1 l2 : forall d d', acts d (l1 ++ l2) = Ok d' -> exists d1, acts d l1 = Ok d1 /\ acts d1 l2 = Ok d'.
  Proof.
    induction l1 as [|b l1 IH]; intros d d'; cbn [acts app].
    - eauto.
    - destruct (act_on d b) as [d1|]; cbn [bind]; [|discriminate]. apply IH.
  Qed.
  Lemma acts_join l1 l2 d d1 : acts d l1 = Ok d1 -> acts d (l1 ++ l2) = acts d1 l2.
  Proof.
    revert d. induction l1 as [|b l1 IH]; intros d; cbn [acts app].
    - intros K. now injection K as <-.
    - destruct (act_on d b) as [d2|]; cbn [bind]; [|discriminate]. apply IH.
  Qed.
  Lemma made_app l1 l2 : made (l1 ++ l2) = made l1 ++ made l2.
  Proof. induction l1 as [|b l1 IH]; [reflexivity|]. destruct b; cbn [app made]; rewrite ?IH; reflexivity. Qed.

  (** What each viewport keeps. *)
  Definition keeps (f0 f : fig) (a : pane C) (m : coord * coord * coord * coord * C) : Prop :=
    let '(x, y, w, h, c) := m in
    a_extent a = (x, y, either w (f_width f0), either h (f_height f0)) /\ a_color a = c /\
    placed (view f a) /\ lims (view f a).
  Lemma view_pane f v (c : C) : p_fig v = f -> view f (pane_of v c) = v.
  Proof. intros <-. now destruct v. Qed.

  Lemma put_length {A} n (x : A) (l : list A) : length (put n x l) = length l.
  Proof. revert n. induction l as [|b l IH]; intros [|n]; cbn; auto. Qed.
  Lemma put_other {A} n (x : A) (l : list A) i : i <> n -> nth_error (put n x l) i = nth_error l i.
  Proof.
    revert n i. induction l as [|b l IH]; intros [|n] [|i] H; cbn; try reflexivity; try lia. apply IH. lia.
  Qed.
  Lemma put_same {A} n (x y : A) (l : list A) : nth_error l n = Some y -> nth_error (put n x l) n = Some x.
  Proof. revert n. induction l as [|b l IH]; intros [|n] H; cbn in *; try discriminate; auto. Qed.
  Lemma put_forall2 {A B} (P : A -> B -> Prop) n x y (l : list A) m : nth_error l n = Some y ->
    (forall b, P y b -> P x b) -> Forall2 P l m -> Forall2 P (put n x l) m.
  Proof.
    intros N K F. revert n N. induction F as [|u b l m U F IH]; intros [|n] N; cbn in *; try discriminate.
    - injection N as ->. constructor; auto.
    - constructor; auto.
  Qed.

  (** show *)
  Lemma show_pane d i z d' : show d i z = Ok d' -> exists a v, nth_error (d_panes d) i = Some a /\
    show_zoom (view (d_fig d) a) z = Ok v /\
    d' = mkDesk (d_fig d) (put i (pane_of v (a_color a)) (d_panes d)) (d_zoom d) (d_axes d) (d_registered d).
  Proof.
    unfold show. destruct (nth_error (d_panes d) i) as [a|] eqn:A; [|discriminate].
    destruct (show_zoom _ _) as [v|] eqn:V; cbn [bind]; [|discriminate]. intros K. injection K as <-. eauto.
  Qed.
  Lemma show_keeps f0 f a m v z : keeps f0 f a m -> show_zoom (view f a) z = Ok v -> keeps f0 f (pane_of v (a_color a)) m.
  Proof.
    destruct m as [[[[x y] w] h] c]. intros (E & CC & P & L) S. pose proof (show_ok _ _ _ S) as (F & X & Y & Z & XL & YL & NZ).
    cbn [keeps]. rewrite (view_pane f v _ F). cbn [a_extent a_color pane_of]. cbn in X. rewrite X. split; [exact E|].
    split; [exact CC|]. split.
    - unfold placed, left, bottom, wide, high in *. now rewrite F, X, Y.
    - eexists _, _. eauto.
  Qed.

  (** Updates *)
  Lemma update_all_spec f (l l' : list (pane C)) : update_all f l = Ok l' ->
    Forall2 (fun a a' => exists v, update (view f a) = Ok v /\ a' = pane_of v (a_color a)) l l'.
  Proof.
    revert l'. induction l as [|a l IH]; intros l'; cbn [update_all].
    - intros K. injection K as <-. constructor.
    - destruct (update (view f a)) as [v|] eqn:V; cbn [bind]; [|discriminate].
      destruct (update_all f l) as [r|]; cbn [bind]; [|discriminate]. intros K. injection K as <-. constructor; eauto.
  Qed.
  Lemma update_keeps f0 f g a m v : keeps f0 g a m -> update (view f a) = Ok v -> keeps f0 f (pane_of v (a_color a)) m.
  Proof.
    destruct m as [[[[x y] w] h] c]. intros (E & CC & P & L) U. pose proof (update_ok _ _ U) as (F & X & Z & PL & LI).
    cbn [keeps]. rewrite (view_pane f v _ F). cbn [a_extent a_color pane_of]. cbn in X. rewrite X. split; [exact E|].
    split; [exact CC|]. split; [exact PL|]. destruct LI as (u & w' & A & B & _). now exists u, w'.
  Qed.

  (** The wheel *)
  Lemma on_scroll_spec i b d k d' : on_scroll i b d k = Ok d' ->
    d' = d /\ (i = None \/ d_axes d k <> i) \/
    (exists j a v, i = Some j /\ d_axes d k = Some j /\ nth_error (d_panes d) j = Some a /\
       show_zoom (view (d_fig d) a) (zoomed (d_zoom d k) b) = Ok v /\
       d' = mkDesk (d_fig d) (put j (pane_of v (a_color a)) (d_panes d)) (assign (d_zoom d) k (zoomed (d_zoom d k) b)) (d_axes d) (d_registered d)).
  Proof.
    unfold on_scroll. destruct i as [i|]; [|intros K; injection K as <-; auto].
    destruct (d_axes d k) as [j|] eqn:J; [|intros K; injection K as <-; left; split; [auto|right; congruence]].
    destruct (Nat.eqb i j) eqn:E.
    - apply Nat.eqb_eq in E. subst j. intros K. apply show_pane in K. destruct K as (a & v & A & V & ->). cbn in *.
      right. exists i, a, v. auto.
    - intros K. injection K as <-. left. split; [auto|]. right. apply Nat.eqb_neq in E. congruence.
  Qed.

  (** The state reached by a program. *)
  Definition reached (f0 : fig) (l : list (act C)) (d : desk C) : Prop :=
    d_fig d = resized f0 (inches_after (f_inches f0) l) /\
    Forall2 (keeps f0 (d_fig d)) (d_panes d) (made l) /\
    NoDup (d_registered d) /\
    (forall k, In k (d_registered d) <-> connected_to k l <> None) /\
    (forall k i, connected_to k l = Some i -> d_axes d k = Some i).

  Lemma scroll_keeps f0 b i ks : forall d d', scroll_all i b ks d = Ok d' -> forall ms,
    Forall2 (keeps f0 (d_fig d)) (d_panes d) ms ->
    Forall2 (keeps f0 (d_fig d)) (d_panes d') ms /\ d_fig d' = d_fig d /\ d_axes d' = d_axes d /\ d_registered d' = d_registered d.
  Proof.
    induction ks as [|k ks IH]; intros d d'; cbn [scroll_all].
    - intros K. injection K as <-. auto.
    - destruct (on_scroll i b d k) as [d1|] eqn:S; cbn [bind]; [|discriminate]. intros K ms F.
      destruct (on_scroll_spec _ _ _ _ _ S) as [[-> _]|(j & a & v & _ & _ & A & V & ->)]; [now apply IH|].
      specialize (IH _ _ K ms). cbn [d_fig d_panes d_axes d_registered] in IH. apply IH.
      apply (put_forall2 _ _ _ _ _ _ A); [|exact F]. intros m KM. now apply (show_keeps _ _ _ _ _ _ KM V).
  Qed.

  Lemma connected_snoc k l (a : act C) : connected_to k (l ++ [a]) =
    match a with
    | Join j i => if Nat.eqb j k then Some i else connected_to k l
    | Leave j => if Nat.eqb j k then None else connected_to k l
    | _ => connected_to k l
    end.
  Proof. unfold connected_to. rewrite fold_left_app. reflexivity. Qed.
  Lemma inches_snoc s l (a : act C) : inches_after s (l ++ [a]) = match a with Sized i => i | _ => inches_after s l end.
  Proof. unfold inches_after. rewrite fold_left_app. reflexivity. Qed.

  Lemma reach f0 z l : forall d, acts (bare f0 z) l = Ok d -> reached f0 l d.
  Proof.
    induction l as [|b l IH] using rev_ind; intros d A.
    - cbn in A. injection A as <-. unfold reached. cbn. split; [now destruct f0|]. split; [constructor|].
      split; [constructor|]. split; [split; [easy|congruence]|easy].
    - destruct (acts_app _ _ _ _ A) as (d1 & A1 & A2). clear A. specialize (IH _ A1).
      cbn [acts] in A2. destruct (act_on d1 b) as [d2|] eqn:S; cbn [bind] in A2; [|discriminate]. injection A2 as <-.
      destruct IH as (F & P & ND & R & X). unfold reached. setoid_rewrite connected_snoc. rewrite inches_snoc, made_app.
      destruct b as [x y w h c|i|k j|k|x y b]; cbn [act_on made app] in *.
      + destruct (new_viewport _ _ _ _ _) as [v|] eqn:V; cbn [bind] in S; [|discriminate]. injection S as <-.
        cbn [d_fig d_panes d_axes d_registered]. repeat split; auto; try apply R.
        apply Forall2_app; [exact P|]. constructor; [|constructor].
        pose proof (new_lims _ _ _ _ _ _ V) as LI. apply new_ok in V. destruct V as (VF & VE & _ & VP & _).
        cbn [keeps]. rewrite (view_pane _ v _ VF). cbn. rewrite VE, F. auto.
      + destruct (update_all _ _) as [r|] eqn:U; cbn [bind] in S; [|discriminate]. injection S as <-.
        cbn [d_fig d_panes d_axes d_registered]. rewrite app_nil_r. repeat split; auto; try apply R.
        * rewrite F. reflexivity.
        * apply update_all_spec in U. clear - P U. revert P. generalize (made l). induction U as [|a a' p p' (v & V & ->) U IH]; intros ms P.
          -- inversion P. constructor.
          -- inversion P; subst. constructor; [eapply update_keeps; eassumption|auto].
      + destruct (nth_error (d_panes d1) j) as [a|] eqn:N; [|discriminate].
        apply show_pane in S. destruct S as (a' & v & N' & V & ->). cbn [d_fig d_panes d_axes d_registered d_zoom] in *.
        rewrite N in N'. injection N' as <-. rewrite app_nil_r.
        split; [exact F|]. split.
        { apply (put_forall2 _ _ _ _ _ _ N); [|exact P]. intros m KM. now apply (show_keeps _ _ _ _ _ _ KM V). }
        assert (IN : In k (if existsb (Nat.eqb k) (d_registered d1) then d_registered d1 else d_registered d1 ++ [k])).
        { destruct (existsb _ _) eqn:E; [|apply in_or_app; right; now left].
          apply existsb_exists in E. destruct E as (k' & I & E). apply Nat.eqb_eq in E. now subst. }
        split.
        { destruct (existsb _ _) eqn:E; [exact ND|]. apply NoDup_rev in ND. rewrite <- (rev_involutive (_ ++ [k])), rev_app_distr.
          apply NoDup_rev. cbn. constructor; [|exact ND]. rewrite <- in_rev. intros I.
          rewrite <- Bool.not_true_iff_false in E. apply E. apply existsb_exists. exists k. split; [exact I|apply Nat.eqb_refl]. }
        split.
        { intros k'. destruct (Nat.eqb k k') eqn:E.
          - apply Nat.eqb_eq in E. subst k'. split; [congruence|auto].
          - rewrite <- R. destruct (existsb _ _); [tauto|]. rewrite in_app_iff. cbn. apply Nat.eqb_neq in E. intuition. }
        intros k' i'. unfold assign. rewrite (Nat.eqb_sym k' k). destruct (Nat.eqb k k'); [auto|apply X].
      + destruct (d_axes d1 k) as [j|] eqn:J; [|discriminate]. injection S as <-. cbn [d_fig d_panes d_axes d_registered].
        rewrite app_nil_r. split; [exact F|]. split; [exact P|]. split; [now apply NoDup_filter|]. split.
        * intros k'. rewrite filter_In, R, Nat.eqb_sym. destruct (Nat.eqb k k'); cbn [negb]; intuition congruence.
        * intros k' i'. destruct (Nat.eqb k k'); [discriminate|apply X].
      + destruct (scroll_keeps f0 _ _ _ _ _ S _ P) as (K1 & K2 & K3 & K4). rewrite app_nil_r, K2, K3, K4. auto.
  Qed.

  (** ** Which viewport is at a point *)
  Lemma between_spec (a w p : Qc) : between a w p = true <-> lies a w p.
  Proof.
    unfold between, lies. destruct (qle 0 w) eqn:E; rewrite Bool.andb_true_iff, qle_spec, qlt_spec.
    - apply qle_spec in E. split; [auto|]. intros [K|[K1 K2]]; [exact K|]. toQ. lra.
    - assert (w < 0) by (apply Qcnot_le_lt; intros K; apply qle_spec in K; congruence). split; [auto|].
      intros [[K1 K2]|K]; [|exact K]. toQ. lra.
  Qed.
  Lemma asks_one f s c p p' : asks f s c p -> asks f s c p' -> p = p'.
  Proof.
    destruct c as [n|x|g]; cbn; try congruence. intros (r & A & ->) (r' & A' & ->). congruence.
  Qed.
  Lemma holds_covers f0 f a m x y : keeps f0 f a m -> not_zero m -> fst (size f) <> 0 -> snd (size f) <> 0 ->
    (holds f a x y = true <-> covers f m x y).
  Proof.
    destruct m as [[[[mx my] mw] mh] c]. intros (E & _ & P & _) (ZW & ZH) W H.
    rewrite (either_nonzero _ _ ZW), (either_nonzero _ _ ZH) in E.
    unfold placed in P. cbn [view p_extent p_fig] in P. rewrite E in P. destruct P as (P1 & P2 & P3 & P4).
    apply place_asks in P1; [|exact W]. apply place_asks in P2; [|exact H]. apply place_asks in P3; [|exact W]. apply place_asks in P4; [|exact H].
    unfold left, bottom, wide, high in *. cbn [view p_pos] in *.
    unfold holds, covers. destruct (a_pos a) as [[[l b] w] h]. destruct (size f) as [sw sh]. cbn [fst snd] in *.
    rewrite Bool.andb_true_iff, !between_spec. split.
    - intros (A & B). exists (l * sw), (b * sh), (w * sw), (h * sh). auto 10.
    - intros (px & py & pw & ph & A1 & A2 & A3 & A4 & L1 & L2).
      rewrite (asks_one _ _ _ _ _ P1 A1), (asks_one _ _ _ _ _ P2 A2), (asks_one _ _ _ _ _ P3 A3), (asks_one _ _ _ _ _ P4 A4). auto.
  Qed.
  Lemma topmost_spec f (l : list (pane C)) x y : forall n i, topmost f n l x y = Some i <->
    exists j a, i = (n + j)%nat /\ (nth_error l j = Some a) /\ holds f a x y = true /\ forall j' (a' : pane C), (j < j')%nat -> nth_error l j' = Some a' -> holds f a' x y = false.
  Proof.
    induction l as [|b l IH]; intros n i; cbn [topmost].
    - split; [discriminate|]. intros (j & a & _ & N & _). destruct j; discriminate.
    - destruct (topmost f (S n) l x y) as [i'|] eqn:T.
      + split.
        * intros K. injection K as ->. apply IH in T. destruct T as (j & a & -> & N & Hh & L).
          exists (S j), a. split; [lia|]. split; [exact N|]. split; [exact Hh|]. intros [|j'] a' K N'; [lia|]. apply (L j'); [lia|exact N'].
        * intros (j & a & -> & N & Hh & L). apply IH in T. destruct T as (j' & a' & -> & N' & Hh' & L').
          f_equal. destruct j as [|j]; cbn in N.
          -- rewrite (L (S j') a') in Hh' by (try lia; exact N'). discriminate.
          -- assert (j = j'); [|lia]. destruct (Nat.lt_trichotomy j j') as [K|[K|K]]; [|exact K|].
             ++ rewrite (L (S j') a') in Hh' by (try lia; exact N'). discriminate.
             ++ rewrite (L' j a) in Hh by (try lia; exact N). discriminate.
      + assert (NO : forall j a, nth_error l j = Some a -> holds f a x y = false).
        { intros j. induction j as [j IHj] using (well_founded_induction (well_founded_ltof _ (fun j => length l - j)%nat)).
          intros a N. destruct (holds f a x y) eqn:E; [|reflexivity]. exfalso.
          assert (K : topmost f (S n) l x y = Some (S n + j)%nat); [|congruence].
          apply IH. exists j, a. split; [reflexivity|]. split; [exact N|]. split; [exact E|].
          intros j' a' L N'. apply (IHj j'); [|exact N']. unfold ltof.
          assert (j' < length l)%nat by (apply nth_error_Some; congruence). lia. }
        split.
        * destruct (holds f b x y) eqn:E; [|discriminate]. intros K. injection K as <-. exists O, b.
          split; [lia|]. split; [reflexivity|]. split; [exact E|]. intros [|j'] a' K N'; [lia|]. apply (NO _ _ N').
        * intros (j & a & -> & N & Hh & L). destruct j as [|j]; cbn in N.
          -- injection N as ->. rewrite Hh, Nat.add_0_r. reflexivity.
          -- rewrite (NO _ _ N) in Hh. discriminate.
  Qed.
  Lemma forall2_nth {A B} (P : A -> B -> Prop) (l : list A) (m : list B) : Forall2 P l m -> forall i,
    (forall a : A, nth_error l i = Some a -> exists b, nth_error m i = Some b /\ P a b) /\ (forall b, nth_error m i = Some b -> exists a : A, nth_error l i = Some a /\ P a b).
  Proof.
    intros F. induction F as [|a b l m K F IH]; intros [|i]; cbn; split; try discriminate.
    - intros a' E. injection E as <-. eauto.
    - intros a' E. injection E as <-. eauto.
    - apply IH.
    - apply IH.
  Qed.
  Lemma at_point_top f0 z l d x y i : acts (bare f0 z) l = Ok d -> Forall not_zero (made l) ->
    fst (size (d_fig d)) <> 0 -> snd (size (d_fig d)) <> 0 ->
    (at_point d x y = Some i <-> on_top (d_fig d) (made l) x y i).
  Proof.
    intros A NZ W H. destruct (reach _ _ _ _ A) as (_ & P & _).
    assert (Z : forall j m, nth_error (made l) j = Some m -> not_zero m).
    { intros j m N. rewrite Forall_forall in NZ. apply NZ. apply (nth_error_In _ _ N). }
    unfold at_point. rewrite topmost_spec. unfold on_top. split.
    - intros (j & a & -> & N & Hh & L). rewrite Nat.add_0_l. split.
      + destruct (proj1 (forall2_nth _ _ _ P j) _ N) as (m & M & K). exists m. split; [exact M|].
        apply (holds_covers _ _ _ _ x y K (Z _ _ M) W H). exact Hh.
      + intros j' m' J M' K. destruct (proj2 (forall2_nth _ _ _ P j') _ M') as (a' & N' & K').
        apply (holds_covers _ _ _ _ x y K' (Z _ _ M') W H) in K. rewrite (L _ _ J N') in K. discriminate.
    - intros ((m & M & K) & L). destruct (proj2 (forall2_nth _ _ _ P i) _ M) as (a & N & K').
      exists i, a. split; [reflexivity|]. split; [exact N|]. split; [now apply (holds_covers _ _ _ _ x y K' (Z _ _ M) W H)|].
      intros j' a' J N'. destruct (proj1 (forall2_nth _ _ _ P j') _ N') as (m' & M' & K'').
      destruct (holds (d_fig d) a' x y) eqn:E; [|reflexivity]. exfalso. apply (L _ _ J M').
      now apply (holds_covers _ _ _ _ x y K'' (Z _ _ M') W H).
  Qed.
  Lemma color_top f0 z l d x y c : acts (bare f0 z) l = Ok d -> Forall not_zero (made l) ->
    fst (size (d_fig d)) <> 0 -> snd (size (d_fig d)) <> 0 ->
    (color_at d x y = Some c <-> exists i m, on_top (d_fig d) (made l) x y i /\ nth_error (made l) i = Some m /\ color_of m = c).
  Proof.
    intros A NZ W H. pose proof (reach _ _ _ _ A) as (_ & P & _). unfold color_at.
    assert (CO : forall i a m, nth_error (d_panes d) i = Some a -> nth_error (made l) i = Some m -> a_color a = color_of m).
    { intros i a m N M. destruct (proj1 (forall2_nth _ _ _ P i) _ N) as (m' & M' & K). rewrite M in M'. injection M' as <-.
      destruct m as [[[[mx my] mw] mh] c']. destruct K as (_ & K & _). exact K. }
    split.
    - destruct (at_point d x y) as [i|] eqn:T; [|discriminate]. destruct (nth_error (d_panes d) i) as [a|] eqn:N; [|discriminate].
      intros K. injection K as <-. destruct (proj1 (forall2_nth _ _ _ P i) _ N) as (m & M & _).
      exists i, m. split; [now apply (at_point_top _ _ _ _ _ _ _ A NZ W H)|]. split; [exact M|]. symmetry. apply (CO _ _ _ N M).
    - intros (i & m & T & M & <-). apply (at_point_top _ _ _ _ _ _ _ A NZ W H) in T. rewrite T.
      destruct (proj2 (forall2_nth _ _ _ P i) _ M) as (a & N & _). rewrite N. f_equal. apply (CO _ _ _ N M).
  Qed.
  Lemma nothing_at f0 z l d x y : acts (bare f0 z) l = Ok d -> Forall not_zero (made l) ->
    fst (size (d_fig d)) <> 0 -> snd (size (d_fig d)) <> 0 ->
    (at_point d x y = None <-> forall m, In m (made l) -> ~ covers (d_fig d) m x y).
  Proof.
    intros A NZ W H. pose proof (reach _ _ _ _ A) as (_ & P & _). split.
    - intros T m I K. apply In_nth_error in I. destruct I as (i & M).
      (* the last covering viewport *)
      assert (G : exists j, at_point d x y = Some j); [|destruct G; congruence].
      revert i m M K. intros i. induction i as [i IHi] using (well_founded_induction (well_founded_ltof _ (fun j => length (made l) - j)%nat)).
      intros m M K. destruct (proj2 (forall2_nth _ _ _ P i) _ M) as (a & N & KE).
      rewrite Forall_forall in NZ.
      assert (Hh : holds (d_fig d) a x y = true) by (apply (holds_covers _ _ _ _ x y KE (NZ _ (nth_error_In _ _ M)) W H); exact K).
      clear - N Hh. unfold at_point. generalize O. generalize dependent i. induction (d_panes d) as [|b ps IH]; intros i N n.
      + destruct i; discriminate.
      + cbn [topmost]. destruct (topmost (d_fig d) (S n) ps x y) as [j|] eqn:E; [eauto|].
        destruct i as [|i]; cbn in N.
        * injection N as ->. rewrite Hh. eauto.
        * destruct (IH _ N (S n)) as (j & J). congruence.
    - intros L. destruct (at_point d x y) as [i|] eqn:T; [|reflexivity]. exfalso.
      apply (at_point_top _ _ _ _ _ _ _ A NZ W H) in T. destruct T as ((m & M & K) & _). apply (L m); [|exact K]. apply (nth_error_In _ _ M).
  Qed.
End Facts.

(** ** Grids *)
Lemma rising_le l : rising l -> forall i j a b, (i <= j)%nat -> nth_error l i = Some a -> nth_error l j = Some b -> a <= b.
Proof.
  induction l as [|x l IH]; intros R i j a b L A B; [destruct i; discriminate|].
  assert (R' : rising l) by (destruct l; [exact Logic.I|apply R]).
  destruct i as [|i], j as [|j]; cbn in A, B; try lia.
  - injection A as <-. injection B as <-. toQ. lra.
  - injection A as <-. destruct l as [|y l]; [destruct j; discriminate|]. destruct R as (R & _).
    pose proof (IH R' 0%nat j y b) as K. cbn in K. specialize (K ltac:(lia) eq_refl B). toQ. lra.
  - apply (IH R' i j); [lia|assumption|assumption].
Qed.
Lemma rising_between l : rising l -> forall a b x, nth_error l 0 = Some a -> nth_error l (pred (length l)) = Some b ->
  a <= x -> x < b -> exists i u v, nth_error l i = Some u /\ nth_error l (S i) = Some v /\ u <= x /\ x < v.
Proof.
  induction l as [|y l IH]; intros R a b x A B L1 L2; [discriminate|]. cbn in A. injection A as <-.
  destruct l as [|z l]; cbn in B; [injection B as <-; toQ; lra|].
  destruct (qlt x z) eqn:E.
  - apply qlt_spec in E. exists 0%nat, y, z. auto.
  - apply qlt_false in E. destruct R as (_ & R). destruct (IH R z b x eq_refl B E L2) as (i & u & v & K). exists (S i), u, v. exact K.
Qed.
Lemma band_unique s es i j x : rising (map (at_side s) es) -> in_band s es i x -> in_band s es j x -> i = j.
Proof.
  intros R (a & a' & A & A' & L & L') (b & b' & B & B' & M & M').
  destruct (Nat.lt_trichotomy i j) as [K|[K|K]]; [exfalso|exact K|exfalso].
  - pose proof (rising_le _ R (S i) j (at_side s a') (at_side s b) K) as G. rewrite !nth_error_map, A', B in G. specialize (G eq_refl eq_refl). toQ. lra.
  - pose proof (rising_le _ R (S j) i (at_side s b') (at_side s a) K) as G. rewrite !nth_error_map, B', A in G. specialize (G eq_refl eq_refl). toQ. lra.
Qed.
Lemma nodup_app {A} (l m : list A) : NoDup l -> NoDup m -> (forall x, In x l -> In x m -> False) -> NoDup (l ++ m).
Proof.
  intros N M D. induction N as [|x l I N IH]; [exact M|]. cbn. constructor.
  - rewrite in_app_iff. intros [K|K]; [contradiction|]. apply (D x); [now left|exact K].
  - apply IH. intros y Y. apply D. now right.
Qed.
Lemma nodup_prod {A B} (l : list A) (m : list B) : NoDup l -> NoDup m -> NoDup (list_prod l m).
Proof.
  intros N M. induction N as [|x l I N IH]; cbn; [constructor|]. apply nodup_app.
  - clear - M. induction M as [|y m J M IH]; cbn; constructor; [|exact IH]. rewrite in_map_iff. intros (y' & E & K). congruence.
  - exact IH.
  - intros [a b] P Q. rewrite in_map_iff in P. destruct P as (y & E & _). injection E as <- <-. rewrite in_prod_iff in Q. now destruct Q.
Qed.
Section Grid.
  Context {C : Type}.
  Implicit Types (d : desk C) (l : list (act C)).
  Lemma cell_covers dpi xs ys f (m : coord * coord * coord * coord * C) ij x y : f_dpi f = dpi ->
    fst (size f) <> 0 -> snd (size f) <> 0 ->
    rising (map (at_side (fst (size f))) xs) -> rising (map (at_side (snd (size f))) ys) -> is_cell dpi xs ys m ij ->
    (covers f m x y <-> in_band (fst (size f)) xs (fst ij) x /\ in_band (snd (size f)) ys (snd ij) y).
  Proof.
    destruct m as [[[[mx my] mw] mh] c], ij as [i j]. intros D W H RX RY (a & a' & b & b' & A & A' & B & B' & M1 & M2 & M3 & M4).
    cbn [fst snd] in A, A', B, B'. cbn [covers fst snd].
    set (sw := fst (size f)) in *. set (sh := snd (size f)) in *.
    assert (FT : forall s e e', at_side s (from_to e e') = at_side s e' - at_side s e) by (intros; unfold at_side, from_to; cbn; ring).
    assert (MX : at_side sw a <= at_side sw a').
    { apply (rising_le _ RX i (S i)); [lia|now rewrite nth_error_map, A|now rewrite nth_error_map, A']. }
    assert (MY : at_side sh b <= at_side sh b').
    { apply (rising_le _ RY j (S j)); [lia|now rewrite nth_error_map, B|now rewrite nth_error_map, B']. }
    split.
    - intros (px & py & pw & ph & A1 & A2 & A3 & A4 & L1 & L2).
      apply (M1 f sw _ D W) in A1. apply (M2 f sh _ D H) in A2. apply (M3 f sw _ D W) in A3. apply (M4 f sh _ D H) in A4.
      rewrite FT in A3, A4. subst. unfold lies in *. split.
      + exists a, a'. repeat split; auto; clear - L1 MX; destruct L1 as [[K1 K2]|[K1 K2]]; generalize dependent (at_side sw a); generalize dependent (at_side sw a'); intros; toQ; lra.
      + exists b, b'. repeat split; auto; clear - L2 MY; destruct L2 as [[K1 K2]|[K1 K2]]; generalize dependent (at_side sh b); generalize dependent (at_side sh b'); intros; toQ; lra.
    - intros ((u & u' & U & U' & L1 & L2) & (v & v' & V & V' & L3 & L4)). rewrite A in U. rewrite A' in U'. rewrite B in V. rewrite B' in V'.
      injection U as <-. injection U' as <-. injection V as <-. injection V' as <-.
      exists (at_side sw a), (at_side sh b), (at_side sw (from_to a a')), (at_side sh (from_to b b')).
      rewrite (M1 f sw _ D W), (M2 f sh _ D H), (M3 f sw _ D W), (M4 f sh _ D H). repeat (split; [reflexivity|]).
      rewrite !FT. unfold lies. split; left; (split; [assumption|]).
      + replace (at_side sw a + (at_side sw a' - at_side sw a)) with (at_side sw a') by ring. exact L2.
      + replace (at_side sh b + (at_side sh b' - at_side sh b)) with (at_side sh b') by ring. exact L4.
  Qed.
  Lemma nodup_order dpi xs ys order (ms : list (coord * coord * coord * coord * C)) : is_grid dpi xs ys order ms -> NoDup order.
  Proof.
    intros (P & _). apply Permutation_sym in P. apply (Permutation_NoDup P). apply nodup_prod; apply seq_NoDup.
  Qed.
  Lemma dpi_kept f0 z l d : acts (bare f0 z) l = Ok d -> f_dpi (d_fig d) = f_dpi f0.
  Proof. intros A. destruct (reach _ _ _ _ A) as (F & _). rewrite F. reflexivity. Qed.
  Lemma grid_cell f0 z l d xs ys order x y k : acts (bare f0 z) l = Ok d ->
    is_grid (f_dpi f0) xs ys order (made l) -> Forall not_zero (made l) ->
    let W := fst (size (d_fig d)) in let H := snd (size (d_fig d)) in
    W <> 0 -> H <> 0 -> rising (map (at_side W) xs) -> rising (map (at_side H) ys) ->
    (at_point d x y = Some k <->
     exists i j, nth_error order k = Some (i, j) /\ in_band W xs i x /\ in_band H ys j y) /\
    (at_point d x y = Some k -> forall n m, nth_error (made l) n = Some m -> covers (d_fig d) m x y -> n = k).
  Proof.
    intros A G NZ W H NW NH RX RY. pose proof (nodup_order _ _ _ _ _ G) as ND. destruct G as (P & F).
    pose proof (dpi_kept _ _ _ _ A) as D.
    assert (CV : forall n m ij, nth_error (made l) n = Some m -> nth_error order n = Some ij ->
      (covers (d_fig d) m x y <-> in_band W xs (fst ij) x /\ in_band H ys (snd ij) y)).
    { intros n m ij M O. destruct (proj1 (forall2_nth _ _ _ F n) _ M) as (ij' & O' & CL). rewrite O in O'. injection O' as <-.
      now apply (cell_covers (f_dpi f0)). }
    assert (ONE : forall n m k' m', nth_error (made l) n = Some m -> nth_error (made l) k' = Some m' ->
      covers (d_fig d) m x y -> covers (d_fig d) m' x y -> n = k').
    { intros n m k' m' M M' K K'. destruct (proj1 (forall2_nth _ _ _ F n) _ M) as ((i & j) & O & _).
      destruct (proj1 (forall2_nth _ _ _ F k') _ M') as ((i' & j') & O' & _).
      apply (CV _ _ _ M O) in K. apply (CV _ _ _ M' O') in K'. cbn [fst snd] in *. destruct K as (K1 & K2), K' as (K1' & K2').
      pose proof (band_unique _ _ _ _ _ RX K1 K1'). pose proof (band_unique _ _ _ _ _ RY K2 K2'). subst i' j'.
      rewrite NoDup_nth_error in ND. apply ND; [|congruence]. apply nth_error_Some. congruence. }
    rewrite (at_point_top _ _ _ _ x y k A NZ NW NH). split.
    - split.
      + intros ((m & M & K) & _). destruct (proj1 (forall2_nth _ _ _ F k) _ M) as ((i & j) & O & _).
        apply (CV _ _ _ M O) in K. exists i, j. split; [exact O|exact K].
      + intros (i & j & O & K). destruct (proj2 (forall2_nth _ _ _ F k) _ O) as (m & M & _).
        assert (K' : covers (d_fig d) m x y) by (apply (CV _ _ _ M O); exact K).
        split; [eauto|]. intros n m' L M' K''. pose proof (ONE _ _ _ _ M M' K' K''). lia.
    - intros ((m & M & K) & _) n m' M' K'. apply (ONE _ _ _ _ M' M K' K).
  Qed.
  Lemma grid_tiles f0 z l d xs ys order x y e1 e2 g1 g2 : acts (bare f0 z) l = Ok d ->
    is_grid (f_dpi f0) xs ys order (made l) -> Forall not_zero (made l) ->
    let W := fst (size (d_fig d)) in let H := snd (size (d_fig d)) in
    rising (map (at_side W) xs) -> rising (map (at_side H) ys) ->
    nth_error xs 0 = Some e1 -> nth_error xs (pred (length xs)) = Some e2 -> at_side W e1 = 0 -> at_side W e2 = W ->
    nth_error ys 0 = Some g1 -> nth_error ys (pred (length ys)) = Some g2 -> at_side H g1 = 0 -> at_side H g2 = H ->
    0 <= x -> x < W -> 0 <= y -> y < H ->
    exists k, at_point d x y = Some k /\
      forall n m, nth_error (made l) n = Some m -> (covers (d_fig d) m x y <-> n = k).
  Proof.
    intros A G NZ W H RX RY E1 E2 V1 V2 G1 G2 U1 U2 X1 X2 Y1 Y2.
    assert (NW : W <> 0) by (intros K; rewrite K in X2; toQ; lra). assert (NH : H <> 0) by (intros K; rewrite K in Y2; toQ; lra).
    assert (BX : exists i, in_band W xs i x).
    { destruct (rising_between _ RX 0 W x) as (i & u & v & I1 & I2 & L1 & L2); auto.
      - now rewrite nth_error_map, E1, <- V1.
      - rewrite map_length, nth_error_map, E2. cbn [option_map]. now rewrite V2.
      - rewrite nth_error_map in I1, I2. destruct (nth_error xs i) as [a|] eqn:A1; [|discriminate]. destruct (nth_error xs (S i)) as [a'|] eqn:A2; [|discriminate].
        exists i, a, a'. injection I1 as <-. injection I2 as <-. auto. }
    assert (BY : exists i, in_band H ys i y).
    { destruct (rising_between _ RY 0 H y) as (i & u & v & I1 & I2 & L1 & L2); auto.
      - now rewrite nth_error_map, G1, <- U1.
      - rewrite map_length, nth_error_map, G2. cbn [option_map]. now rewrite U2.
      - rewrite nth_error_map in I1, I2. destruct (nth_error ys i) as [a|] eqn:A1; [|discriminate]. destruct (nth_error ys (S i)) as [a'|] eqn:A2; [|discriminate].
        exists i, a, a'. injection I1 as <-. injection I2 as <-. auto. }
    destruct BX as (i & BX), BY as (j & BY).
    assert (I : In (i, j) order).
    { destruct G as (P & _). apply (Permutation_in _ (Permutation_sym P)). apply in_prod_iff.
      destruct BX as (a & a' & _ & B1 & _), BY as (b & b' & _ & B2 & _).
      assert (S i < length xs)%nat by (apply nth_error_Some; congruence). assert (S j < length ys)%nat by (apply nth_error_Some; congruence).
      split; apply in_seq; lia. }
    apply In_nth_error in I. destruct I as (k & O). exists k.
    assert (T : at_point d x y = Some k).
    { apply (grid_cell _ _ _ _ _ _ _ x y k A G NZ NW NH RX RY). eauto. }
    split; [exact T|]. intros n m M. split.
    - intros K. apply (proj2 (grid_cell _ _ _ _ _ _ _ x y k A G NZ NW NH RX RY) T n m M K).
    - intros ->. apply (at_point_top _ _ _ _ x y k A NZ NW NH) in T. destruct T as ((m' & M' & K) & _). congruence.
  Qed.
  Lemma grid_none f0 z l d xs ys order x y e1 e2 g1 g2 : acts (bare f0 z) l = Ok d ->
    is_grid (f_dpi f0) xs ys order (made l) -> Forall not_zero (made l) ->
    let W := fst (size (d_fig d)) in let H := snd (size (d_fig d)) in
    W <> 0 -> H <> 0 -> rising (map (at_side W) xs) -> rising (map (at_side H) ys) ->
    nth_error xs 0 = Some e1 -> nth_error xs (pred (length xs)) = Some e2 ->
    nth_error ys 0 = Some g1 -> nth_error ys (pred (length ys)) = Some g2 ->
    x < at_side W e1 \/ at_side W e2 <= x \/ y < at_side H g1 \/ at_side H g2 <= y ->
    at_point d x y = None.
  Proof.
    intros A G NZ W H NW NH RX RY E1 E2 G1 G2 OUT. destruct (at_point d x y) as [k|] eqn:T; [|reflexivity]. exfalso.
    apply (grid_cell _ _ _ _ _ _ _ x y k A G NZ NW NH RX RY) in T.
    destruct T as (i & j & _ & (a & a' & A1 & A2 & L1 & L2) & (b & b' & B1 & B2 & L3 & L4)).
    assert (S i < length xs)%nat by (apply nth_error_Some; congruence). assert (S j < length ys)%nat by (apply nth_error_Some; congruence).
    assert (Q1 : at_side W e1 <= at_side W a) by (apply (rising_le _ RX 0 i); [lia|now rewrite nth_error_map, E1|now rewrite nth_error_map, A1]).
    assert (Q2 : at_side W a' <= at_side W e2) by (apply (rising_le _ RX (S i) (pred (length xs))); [lia|now rewrite nth_error_map, A2|now rewrite nth_error_map, E2]).
    assert (Q3 : at_side H g1 <= at_side H b) by (apply (rising_le _ RY 0 j); [lia|now rewrite nth_error_map, G1|now rewrite nth_error_map, B1]).
    assert (Q4 : at_side H b' <= at_side H g2) by (apply (rising_le _ RY (S j) (pred (length ys))); [lia|now rewrite nth_error_map, B2|now rewrite nth_error_map, G2]).
    fold W in L1, L2. fold H in L3, L4. clearbody W H. clear - OUT L1 L2 L3 L4 Q1 Q2 Q3 Q4.
    generalize dependent (at_side W e1). generalize dependent (at_side W e2). generalize dependent (at_side H g1). generalize dependent (at_side H g2).
    generalize dependent (at_side W a). generalize dependent (at_side W a'). generalize dependent (at_side H b). generalize dependent (at_side H b').
    intros. destruct OUT as [K|[K|[K|K]]]; unfold Qcle, Qclt in *; lra.
  Qed.
End Grid.

(** What coordinates mean. *)
Lemma means_float dpi a : means dpi (CFloat a) (a, 0).
Proof. intros f s px _ _. cbn. unfold at_side. cbn. split; intros ->; ring. Qed.
Lemma means_int dpi n : means dpi (CInt n) (0, zq n).
Proof. intros f s px _ _. cbn. unfold at_side. cbn. split; intros ->; ring. Qed.
Lemma means_measure dpi u n : u <> Meter -> means dpi (measure u n) (0, n * pixels_per u dpi).
Proof. intros U f s px <- S. rewrite (asks_measure u f s n px S U). unfold at_side. cbn [fst snd]. split; intros ->; ring. Qed.
Lemma means_plus dpi a u n : u <> Meter -> means dpi (plus_measure a u n) (a, n * pixels_per u dpi).
Proof. intros U f s px <- S. rewrite (asks_plus a u f s n px S U). unfold at_side. cbn [fst snd]. reflexivity. Qed.

(** ** The wheel *)
Section Wheel.
  Context {C : Type}.
  Implicit Types (d : desk C) (l : list (act C)).
  Definition poses d := map a_pos (d_panes d).
  Lemma put_map {A B} (g : A -> B) n x y (l : list A) : nth_error l n = Some y -> g x = g y -> map g (put n x l) = map g l.
  Proof.
    revert n. induction l as [|b l IH]; intros [|n] N E; cbn in *; try discriminate; auto.
    - injection N as ->. congruence.
    - f_equal. now apply IH.
  Qed.
  Lemma on_scroll_more i b d k d' : on_scroll i b d k = Ok d' ->
    d_fig d' = d_fig d /\ d_axes d' = d_axes d /\ d_registered d' = d_registered d /\ poses d' = poses d /\
    (forall j, i <> Some j -> nth_error (d_panes d') j = nth_error (d_panes d) j) /\
    (forall k', k' <> k -> d_zoom d' k' = d_zoom d k') /\
    ((i = None \/ d_axes d k <> i) -> d' = d) /\
    (forall j, i = Some j -> d_axes d k = Some j -> d_zoom d' k = zoomed (d_zoom d k) b /\
       exists a v, nth_error (d_panes d) j = Some a /\ show_zoom (view (d_fig d) a) (zoomed (d_zoom d k) b) = Ok v /\
         nth_error (d_panes d') j = Some (pane_of v (a_color a))).
  Proof.
    intros S. destruct (on_scroll_spec _ _ _ _ _ S) as [[-> O]|(j & a & v & -> & J & A & V & ->)].
    - do 7 (split; [auto|]). intros j0 -> J. destruct O; congruence.
    - cbn [d_fig d_axes d_registered d_panes d_zoom]. split; [auto|]. split; [auto|]. split; [auto|]. split.
      + unfold poses. cbn. apply (put_map _ _ _ _ _ A). apply show_ok in V. cbn. apply V.
      + split; [intros j' N; apply put_other; congruence|]. unfold assign. split.
        * intros k' N. apply Nat.eqb_neq in N. now rewrite N.
        * split; [intros [K|K]; congruence|]. intros j' K _. injection K as <-. rewrite Nat.eqb_refl. split; [reflexivity|].
          exists a, v. split; [auto|]. split; [auto|]. apply (put_same _ _ _ _ A).
  Qed.
  Lemma scroll_more i b ks : forall d d', scroll_all i b ks d = Ok d' -> NoDup ks ->
    d_fig d' = d_fig d /\ d_axes d' = d_axes d /\ d_registered d' = d_registered d /\ poses d' = poses d /\
    (forall j, i <> Some j -> nth_error (d_panes d') j = nth_error (d_panes d) j) /\
    (forall k, ~ In k ks \/ i = None \/ d_axes d k <> i -> d_zoom d' k = d_zoom d k) /\
    (forall k j, In k ks -> i = Some j -> d_axes d k = Some j -> d_zoom d' k = zoomed (d_zoom d k) b) /\
    ((forall k, In k ks -> i = None \/ d_axes d k <> i) -> d' = d) /\
    (forall k j, In k ks -> i = Some j -> d_axes d k = Some j -> (forall k', In k' ks -> d_axes d k' = Some j -> k' = k) ->
       exists a v, nth_error (d_panes d) j = Some a /\ show_zoom (view (d_fig d) a) (zoomed (d_zoom d k) b) = Ok v /\
         nth_error (d_panes d') j = Some (pane_of v (a_color a))).
  Proof.
    induction ks as [|k ks IH]; intros d d'; cbn [scroll_all].
    - intros K _. injection K as <-. do 6 (split; [auto|]). split; [intros k j []|]. split; [auto|intros k j []].
    - destruct (on_scroll i b d k) as [d1|] eqn:S; cbn [bind]; [|discriminate]. intros K ND. inversion ND as [|? ? NI ND']; subst.
      destruct (on_scroll_more _ _ _ _ _ S) as (A1 & A2 & A3 & A4 & A5 & A6 & A7 & A8).
      destruct (IH _ _ K ND') as (B1 & B2 & B3 & B4 & B5 & B6 & B7 & B8 & B9). rewrite A2 in B6, B7, B8, B9.
      split; [congruence|]. split; [congruence|]. split; [congruence|]. split; [congruence|].
      split; [intros j N; rewrite B5, A5; auto|]. split.
      { intros k' [N|N].
        - cbn in N. rewrite B6 by (left; tauto). apply A6. intros ->. tauto.
        - destruct (Nat.eq_dec k' k) as [->|NE]; [|rewrite B6 by auto; now apply A6].
          rewrite B6 by auto. rewrite (A7 N). reflexivity. }
      split.
      { intros k' j [<-|I] -> J.
        - rewrite B6 by auto. apply (A8 j); auto.
        - rewrite (B7 k' j I eq_refl J). rewrite A6; [reflexivity|]. intros ->. contradiction. }
      split.
      { intros N. assert (d1 = d) as -> by (apply A7, N; now left). apply B8. intros k' I. apply N. now right. }
      intros k' j [<-|I] -> J U.
      + destruct (A8 j eq_refl J) as (_ & a & v & P1 & P2 & P3). exists a, v. split; [exact P1|]. split; [exact P2|].
        assert (d' = d1) as ->; [|exact P3]. apply B8. intros k' I. right. intros E. apply NI.
        rewrite <- (U k'); [exact I|now right|exact E].
      + assert (d1 = d) as ->.
        { apply A7. right. intros E. apply NI. rewrite (U k (or_introl eq_refl) E). exact I. }
        apply (B9 k' j I eq_refl J). intros k'' I' J'. apply U; [now right|exact J'].
  Qed.
  Lemma wheel_zooms f0 z l d x y b d' : acts (bare f0 z) l = Ok d -> Forall not_zero (made l) ->
    fst (size (d_fig d)) <> 0 -> snd (size (d_fig d)) <> 0 -> act_on d (Wheel x y b) = Ok d' ->
    (forall k i, connected_to k l = Some i -> on_top (d_fig d) (made l) x y i -> d_zoom d' k = zoomed (d_zoom d k) b) /\
    (forall k, (forall i, connected_to k l = Some i -> ~ on_top (d_fig d) (made l) x y i) -> d_zoom d' k = d_zoom d k) /\
    (forall j, ~ on_top (d_fig d) (made l) x y j -> nth_error (d_panes d') j = nth_error (d_panes d) j) /\
    (forall x' y', at_point d' x' y' = at_point d x' y') /\
    (forall k i, connected_to k l = Some i -> on_top (d_fig d) (made l) x y i ->
       (forall k', connected_to k' l = Some i -> k' = k) ->
       exists a v, nth_error (d_panes d) i = Some a /\ nth_error (d_panes d') i = Some (pane_of v (a_color a)) /\
         show_zoom (view (d_fig d) a) (zoomed (d_zoom d k) b) = Ok v).
  Proof.
    intros A NZ W H S. cbn [act_on] in S. destruct (reach _ _ _ _ A) as (F & P & ND & R & X).
    destruct (scroll_more _ _ _ _ _ S ND) as (B1 & B2 & B3 & B4 & B5 & B6 & B7 & B8 & B9).
    pose proof (fun i => at_point_top f0 z l d x y i A NZ W H) as T.
    assert (IN : forall k i, connected_to k l = Some i -> In k (d_registered d)) by (intros k i K; apply R; congruence).
    split; [intros k i K O; apply (B7 k i); [now apply (IN k i)|now apply T|now apply X]|].
    split.
    { intros k N. apply B6. destruct (connected_to k l) as [i|] eqn:E.
      - right. right. rewrite (X _ _ E). intros K. apply (N i eq_refl). apply T. congruence.
      - left. rewrite R, E. congruence. }
    split; [intros j N; apply B5; intros K; apply N; now apply T|]. split.
    { intros x' y'. unfold at_point. rewrite B1. unfold poses in B4. clear - B4. generalize dependent O. revert B4.
      generalize (d_panes d). induction (d_panes d') as [|a ps IH]; intros [|a' ps'] E n; try discriminate; [reflexivity|].
      cbn in E. injection E as E1 E2. cbn [topmost]. rewrite (IH _ E2). unfold holds. rewrite E1. reflexivity. }
    intros k i K O U. destruct (B9 k i) as (a & v & Q1 & Q2 & Q3); [now apply (IN k i)|now apply T|now apply X| |eauto].
    intros k' I J. apply U. destruct (connected_to k' l) as [i'|] eqn:E; [|exfalso; now apply R in I].
    pose proof (X _ _ E). congruence.
  Qed.

  (** What a step leaves alone. *)
  Lemma untouched f0 z l d a d' i p : acts (bare f0 z) l = Ok d -> act_on d a = Ok d' -> nth_error (d_panes d) i = Some p ->
    (~ touches d a i -> nth_error (d_panes d') i = Some p) /\
    (is_sized a = false -> exists p', nth_error (d_panes d') i = Some p' /\ a_pos p' = a_pos p) /\
    (exists p', nth_error (d_panes d') i = Some p' /\ a_extent p' = a_extent p /\ a_color p' = a_color p).
  Proof.
    intros A S N. destruct (reach _ _ _ _ A) as (_ & _ & ND & _).
    destruct a as [x y w h c|s|k j|k|x y b]; cbn [act_on touches is_sized] in *.
    - destruct (new_viewport _ _ _ _ _) as [v|]; cbn [bind] in S; [|discriminate]. injection S as <-. cbn.
      rewrite nth_error_app1 by (apply nth_error_Some; congruence). split; [auto|]. split; [intros _|]; exists p; auto.
    - destruct (update_all _ _) as [r|] eqn:U; cbn [bind] in S; [|discriminate]. injection S as <-. cbn.
      split; [tauto|]. split; [discriminate|]. apply update_all_spec in U.
      destruct (proj1 (forall2_nth _ _ _ U i) _ N) as (p' & P' & v & V & ->). exists (pane_of v (a_color p)). split; [exact P'|].
      apply update_ok in V. cbn. split; [apply V|reflexivity].
    - destruct (nth_error (d_panes d) j) as [q|] eqn:Q; [|discriminate]. apply show_pane in S. destruct S as (q' & v & Q' & V & ->).
      cbn [d_panes d_fig] in *. rewrite Q in Q'. injection Q' as <-. apply show_ok in V. cbn in V. split; [|split].
      + intros NE. rewrite put_other by exact NE. exact N.
      + intros _. destruct (Nat.eq_dec i j) as [->|NE].
        * rewrite (put_same _ _ _ _ Q). exists (pane_of v (a_color q)). split; [reflexivity|]. cbn. replace p with q by congruence. apply V.
        * rewrite put_other by exact NE. eauto.
      + destruct (Nat.eq_dec i j) as [->|NE].
        * rewrite (put_same _ _ _ _ Q). exists (pane_of v (a_color q)). split; [reflexivity|]. cbn. replace p with q by congruence. split; [apply V|reflexivity].
        * rewrite put_other by exact NE. eauto.
    - destruct (d_axes d k); [|discriminate]. injection S as <-. cbn. split; [auto|]. split; [intros _|]; exists p; auto.
    - destruct (scroll_more _ _ _ _ _ S ND) as (B1 & B2 & B3 & B4 & B5 & B6 & B7 & B8 & B9).
      split; [intros T; rewrite B5 by exact T; exact N|].
      destruct (scroll_keeps f0 _ _ _ _ _ S _ (proj1 (proj2 (reach _ _ _ _ A)))) as (K & _).
      destruct (proj1 (forall2_nth _ _ _ (proj1 (proj2 (reach _ _ _ _ A))) i) _ N) as (m & M & E).
      destruct (proj2 (forall2_nth _ _ _ K i) _ M) as (p' & P' & E').
      split.
      + intros _. exists p'. split; [exact P'|]. unfold poses in B4. pose proof (f_equal (fun q => nth_error q i) B4) as G. cbn in G.
        rewrite !nth_error_map, P', N in G. now injection G.
      + exists p'. split; [exact P'|]. destruct m as [[[[mx my] mw] mh] c]. destruct E as (E1 & E2 & _), E' as (E1' & E2' & _). split; congruence.
  Qed.
End Wheel.

(** ** No errors *)
Section Total.
  Context {C : Type}.
  Implicit Types (d : desk C) (l : list (act C)).
  Definition sound (f : fig) (a : pane C) : Prop :=
    lims (view f a) /\ let '(x, y, w, h) := a_extent a in plain x /\ plain y /\ some_length w /\ some_length h.
  Definition ready d : Prop :=
    0 < f_dpi (d_fig d) /\ 0 < fst (size (d_fig d)) /\ 0 < snd (size (d_fig d)) /\
    Forall (sound (d_fig d)) (d_panes d) /\
    (forall k i, d_axes d k = Some i -> (i < length (d_panes d))%nat).
  Lemma put_forall {A} (P : A -> Prop) n x (l : list A) : P x -> Forall P l -> Forall P (put n x l).
  Proof.
    intros K F. revert n. induction F as [|y l Y F IH]; intros [|n]; cbn; constructor; auto.
  Qed.
  Lemma show_ready d i z : ready d -> (i < length (d_panes d))%nat -> exists d', show d i z = Ok d' /\ ready d' /\
    d_axes d' = d_axes d /\ length (d_panes d') = length (d_panes d).
  Proof.
    intros (D & W & H & P & X) L. unfold show. destruct (nth_error (d_panes d) i) as [a|] eqn:N.
    2:{ exfalso. apply nth_error_None in N. lia. }
    rewrite Forall_forall in P. destruct (P a (nth_error_In _ _ N)) as (LI & E). destruct (show_total _ z LI) as (v & V).
    rewrite V. cbn [bind]. eexists. split; [reflexivity|]. cbn [d_fig d_panes d_axes]. rewrite put_length. split; [|auto].
    unfold ready. cbn [d_fig d_panes d_axes]. rewrite put_length. repeat (split; [assumption|]). split; [|exact X].
    apply put_forall; [|now apply Forall_forall]. apply show_ok in V. destruct V as (F & EX & _ & _ & A & B & _). split.
    - rewrite (view_pane _ v _ F). eexists _, _. eauto.
    - cbn in EX. cbn [pane_of a_extent]. rewrite EX. exact E.
  Qed.
  Lemma scroll_ready i b ks : forall d, ready d -> exists d', scroll_all i b ks d = Ok d' /\ ready d' /\
    d_axes d' = d_axes d /\ length (d_panes d') = length (d_panes d).
  Proof.
    induction ks as [|k ks IH]; intros d R; cbn [scroll_all]; [eauto|].
    assert (S : exists d1, on_scroll i b d k = Ok d1 /\ ready d1 /\ d_axes d1 = d_axes d /\ length (d_panes d1) = length (d_panes d)).
    { unfold on_scroll. destruct i as [i|]; [|eauto]. destruct (d_axes d k) as [j|] eqn:J; [|eauto].
      destruct (Nat.eqb i j); [|eauto].
      destruct (show_ready (mkDesk (d_fig d) (d_panes d) (assign (d_zoom d) k (zoomed (d_zoom d k) b)) (d_axes d) (d_registered d)) j (zoomed (d_zoom d k) b)) as (d1 & S & R1 & X1 & L1).
      - exact R.
      - destruct R as (_ & _ & _ & _ & X). apply (X k j J).
      - exists d1. auto. }
    destruct S as (d1 & -> & R1 & X1 & L1). cbn [bind]. destruct (IH d1 R1) as (d2 & S2 & R2 & X2 & L2).
    exists d2. split; [exact S2|]. split; [exact R2|]. split; congruence.
  Qed.
  Lemma update_all_total f (ps : list (pane C)) : 0 < fst (size f) -> 0 < snd (size f) ->
    (forall a, In a ps -> let '(x, y, w, h) := a_extent a in plain x /\ plain y /\ some_length w /\ some_length h) ->
    exists ps', update_all f ps = Ok ps' /\ Forall (sound f) ps' /\ length ps' = length ps.
  Proof.
    intros W H. induction ps as [|a ps IH]; intros K; cbn [update_all]; [eauto|].
    destruct (a_extent a) as [[[x y] w] h] eqn:E. pose proof (K a (or_introl eq_refl)) as KA. rewrite E in KA. destruct KA as (X & Y & A & B).
    destruct (update_total (view f a) x y w h) as (v & V & _); auto. rewrite V. cbn [bind].
    destruct IH as (ps' & -> & S & L). { intros b I. apply K. now right. } cbn [bind].
    eexists. split; [reflexivity|]. cbn [length]. split; [|congruence]. constructor; [|exact S].
    apply update_ok in V. destruct V as (F & EX & _ & _ & u & t & U1 & U2 & _). split.
    - rewrite (view_pane _ v _ F). now exists u, t.
    - cbn [pane_of a_extent]. rewrite EX. cbn [view p_extent]. rewrite E. auto.
  Qed.
  Lemma total l : forall n joined d, ready d -> length (d_panes d) = n -> (forall k, In k joined -> d_axes d k <> None) ->
    sensible n joined l -> exists d', acts d l = Ok d' /\ ready d'.
  Proof.
    induction l as [|a l IH]; intros n joined d R L J S; cbn [acts]; [eauto|].
    destruct a as [x y w h c|[s t]|k i|k|x y b]; cbn [sensible act_on] in *.
    - destruct S as (X & Y & A & B & S). destruct R as (D & W & H & P & X').
      destruct (never_fails (d_fig d) x y w h 1 [] D W H X Y A B (Forall_nil _)) as (v & _ & V & _). rewrite V. cbn [bind].
      apply (IH (Datatypes.S n) joined); auto; cbn [d_fig d_panes d_axes].
      + unfold ready. cbn [d_fig d_panes d_axes]. repeat (split; [assumption|]). split.
        * apply Forall_app. split; [exact P|]. constructor; [|constructor].
          pose proof (new_lims _ _ _ _ _ _ V) as LI. apply new_ok in V. destruct V as (VF & VE & _). split.
          -- now rewrite (view_pane _ v _ VF).
          -- cbn [pane_of a_extent]. rewrite VE. rewrite !either_nonzero; [auto| |].
             ++ intros [K|K]; subst; cbn in B; [lia|toQ; lra].
             ++ intros [K|K]; subst; cbn in A; [lia|toQ; lra].
        * intros k i K. rewrite app_length. cbn. pose proof (X' k i K). lia.
      + rewrite app_length. cbn. lia.
    - destruct S as (A & B & S). destruct R as (D & W & H & P & X').
      assert (W' : 0 < fst (size (resized (d_fig d) (s, t)))) by (cbn; toQ; nra).
      assert (H' : 0 < snd (size (resized (d_fig d) (s, t)))) by (cbn; toQ; nra).
      destruct (update_all_total (resized (d_fig d) (s, t)) (d_panes d) W' H') as (ps' & U & SO & LE).
      { intros a I. rewrite Forall_forall in P. apply (P a I). }
      rewrite U. cbn [bind]. apply (IH n joined); auto; cbn [d_fig d_panes d_axes]; [|congruence].
      unfold ready. cbn [d_fig d_panes d_axes]. split; [exact D|]. repeat (split; [assumption|]). intros k i K. rewrite LE. now apply (X' k).
    - destruct S as (I & S). destruct (nth_error (d_panes d) i) as [a|] eqn:N; [|exfalso; apply nth_error_None in N; lia].
      destruct (show_ready (mkDesk (d_fig d) (d_panes d) (d_zoom d) (assign (d_axes d) k (Some i))
                    (if existsb (Nat.eqb k) (d_registered d) then d_registered d else d_registered d ++ [k])) i (d_zoom d k)) as (d1 & S1 & R1 & X1 & L1).
      + destruct R as (D & W & H & P & X'). unfold ready. cbn [d_fig d_panes d_axes]. repeat (split; [assumption|]).
        intros k' i'. unfold assign. destruct (Nat.eqb k' k); [intros K; injection K as <-; lia|apply X'].
      + cbn [d_panes]. lia.
      + rewrite S1. cbn [bind]. apply (IH n (k :: joined)); auto.
        * rewrite L1. exact L.
        * rewrite X1. cbn [d_axes]. intros k' [<-|K']; unfold assign; [rewrite Nat.eqb_refl; discriminate|].
          destruct (Nat.eqb k' k); [discriminate|now apply J].
    - destruct S as (I & S). destruct (d_axes d k) as [i|] eqn:X; [|exfalso; now apply (J k I)]. cbn [bind].
      apply (IH n joined); auto.
    - destruct (scroll_ready (at_point d x y) b (d_registered d) d R) as (d1 & -> & R1 & X1 & L1). cbn [bind].
      apply (IH n joined); auto; [congruence|]. now rewrite X1.
  Qed.
  Lemma bare_ready f z : 0 < f_dpi f -> 0 < fst (size f) -> 0 < snd (size f) -> ready (bare f z).
  Proof. intros D W H. unfold ready, bare. cbn [d_fig d_panes d_axes]. repeat (split; [assumption|]). split; [constructor|discriminate]. Qed.
  Lemma no_errors f z l : 0 < f_dpi f -> 0 < fst (size f) -> 0 < snd (size f) -> sensible 0 [] l ->
    exists d, acts (bare f z) l = Ok d.
  Proof.
    intros D W H S. destruct (total l 0 [] (bare f z) (bare_ready f z D W H) eq_refl) as (d & A & _); [easy|exact S|eauto].
  Qed.
  Lemma stays_positive f z l d : 0 < f_dpi f -> 0 < fst (size f) -> 0 < snd (size f) -> sensible 0 [] l ->
    acts (bare f z) l = Ok d -> 0 < fst (size (d_fig d)) /\ 0 < snd (size (d_fig d)).
  Proof.
    intros D W H S A. destruct (total l 0 [] (bare f z) (bare_ready f z D W H) eq_refl) as (d' & A' & R); [easy|exact S|].
    rewrite A in A'. injection A' as <-. destruct R as (_ & R1 & R2 & _). auto.
  Qed.

  (** ** Equal units *)
  Lemma square_keeps v v' z : show_zoom v z = Ok v' -> 0 < z -> lims v -> (positive v -> square_units v) -> positive v' -> square_units v'.
  Proof.
    intros V Z L Q POS.
    assert (T : step (mkScene v z true) Connect = Ok (mkScene v' z true)) by (cbn [step s_view s_zoom]; rewrite V; reflexivity).
    destruct (camera_step _ _ _ T eq_refl L Z) as (A & B & CC & _). pose proof (step_lims _ _ _ T L) as L'. cbn [s_view] in *.
    unfold positive, square_units, wide, high, canvas_w, canvas_h in *. rewrite A, B in *. specialize (Q POS).
    destruct (lims_span _ L) as (SX & SY & X & Y). destruct (lims_span _ L') as (SX' & SY' & X' & Y').
    rewrite SX, SY, SX', SY' in *. clear - Q CC X Y.
    set (x := snd (p_xlim v)) in *. set (y := snd (p_ylim v)) in *.
    set (x' := snd (p_xlim v')) in *. set (y' := snd (p_ylim v')) in *.
    clearbody x y x' y'.
    set (W := (let '(_, _, w, _) := p_pos v in w) * _) in *. set (H := (let '(_, _, _, h) := p_pos v in h) * _) in *.
    clearbody W H. assert (N2 : (1 + 1 : Qc) <> 0) by now vm_compute.
    transitivity ((1 + 1) * x' * ((1 + 1) * x * H) / ((1 + 1) * x)); [now field|]. rewrite Q.
    transitivity ((1 + 1) * x' * ((1 + 1) * y) * W / ((1 + 1) * x)); [now field|]. rewrite CC. now field.
  Qed.
  Definition square_inv d : Prop :=
    (forall k, 0 < d_zoom d k) /\ Forall (fun a => lims (view (d_fig d) a) /\ 0 < a_zoom a) (d_panes d).
  Definition squares d : Prop :=
    Forall (fun a => positive (view (d_fig d) a) -> square_units (view (d_fig d) a)) (d_panes d).
  Lemma show_inv d i z d' : 0 < z -> show d i z = Ok d' -> square_inv d -> square_inv d' /\ (squares d -> squares d').
  Proof.
    intros Z S (Q & F). apply show_pane in S. destruct S as (a & v & N & V & ->).
    pose proof F as F'. rewrite Forall_forall in F. destruct (F a (nth_error_In _ _ N)) as (LI & ZA).
    assert (ST : step (mkScene (view (d_fig d) a) z true) Connect = Ok (mkScene v z true)) by (cbn [step s_view s_zoom]; rewrite V; reflexivity).
    assert (VF : p_fig v = d_fig d) by (apply show_ok in V; apply V).
    split.
    - split; [exact Q|]. cbn [d_fig d_panes]. apply put_forall; [|exact F']. rewrite (view_pane _ v _ VF).
      split; [apply (step_lims _ _ _ ST LI)|]. cbn. apply show_ok in V. destruct V as (_ & _ & _ & -> & _). exact Z.
    - unfold squares. cbn [d_fig d_panes]. intros SQ. apply put_forall; [|exact SQ]. rewrite (view_pane _ v _ VF).
      rewrite Forall_forall in SQ. pose proof (SQ a (nth_error_In _ _ N)) as SA. intros POS.
      apply (square_keeps (view (d_fig d) a) v z); auto.
  Qed.
  Lemma scroll_inv i b ks : forall d d', scroll_all i b ks d = Ok d' -> square_inv d -> square_inv d' /\ (squares d -> squares d').
  Proof.
    induction ks as [|k ks IH]; intros d d'; cbn [scroll_all].
    - intros K. injection K as <-. auto.
    - destruct (on_scroll i b d k) as [d1|] eqn:S; cbn [bind]; [|discriminate]. intros K Q.
      assert (G : square_inv d1 /\ (squares d -> squares d1)).
      { unfold on_scroll in S. destruct i as [i|]; [|injection S as <-; auto]. destruct (d_axes d k) as [j|]; [|injection S as <-; auto].
        destruct (Nat.eqb i j); [|injection S as <-; auto].
        assert (Z : 0 < zoomed (d_zoom d k) b) by (apply zoomed_positive, Q).
        assert (Q' : square_inv (mkDesk (d_fig d) (d_panes d) (assign (d_zoom d) k (zoomed (d_zoom d k) b)) (d_axes d) (d_registered d))).
        { destruct Q as (Q1 & Q2). split; [|exact Q2]. cbn [d_zoom]. intros k'. unfold assign. destruct (Nat.eqb k' k); auto. }
        destruct (show_inv _ _ _ _ Z S Q') as (R1 & R2). split; [exact R1|]. intros SQ. apply R2. exact SQ. }
      destruct G as (G1 & G2). destruct (IH _ _ K G1) as (H1 & H2). auto.
  Qed.
  Lemma act_inv d a d' : act_on d a = Ok d' -> square_inv d ->
    square_inv d' /\ (is_new a = false -> squares d -> squares d') /\ (is_sized a = true -> squares d').
  Proof.
    intros S Q. destruct a as [x y w h c|s|k i|k|x y b]; cbn [act_on is_new is_sized] in *.
    - destruct (new_viewport _ _ _ _ _) as [v|] eqn:V; cbn [bind] in S; [|discriminate]. injection S as <-.
      split; [|split; discriminate]. destruct Q as (Q1 & Q2). split; [exact Q1|]. cbn [d_fig d_panes]. apply Forall_app.
      split; [exact Q2|]. constructor; [|constructor]. pose proof (new_lims _ _ _ _ _ _ V) as LI. apply new_ok in V.
      destruct V as (VF & _ & VZ & _). rewrite (view_pane _ v _ VF). split; [exact LI|]. cbn. rewrite VZ. now vm_compute.
    - destruct (update_all _ _) as [r|] eqn:U; cbn [bind] in S; [|discriminate]. injection S as <-.
      destruct Q as (Q1 & Q2). apply update_all_spec in U.
      assert (G : Forall (fun a => (lims (view (resized (d_fig d) s) a) /\ 0 < a_zoom a) /\
         (positive (view (resized (d_fig d) s) a) -> square_units (view (resized (d_fig d) s) a))) r).
      { clear - Q2 U. induction U as [|a a' ps ps' (v & V & ->) U IH]; [constructor|]. inversion Q2 as [|? ? (LI & Z) Q3]; subst.
        constructor; [|now apply IH]. pose proof (update_ok _ _ V) as (F & _ & ZZ & _ & u & t & U1 & U2 & _).
        rewrite (view_pane _ v _ F). split; [split; [now exists u, t|cbn; rewrite ZZ; exact Z]|]. now apply (update_square _ _ V). }
      split; [split; [exact Q1|]|split; [intros _ _|intros _]]; cbn [d_fig d_panes]; unfold squares; cbn [d_fig d_panes];
        (eapply Forall_impl; [|exact G]); cbn beta; intros a KA; apply KA.
    - destruct (nth_error (d_panes d) i); [|discriminate].
      destruct (show_inv _ _ _ _ (proj1 Q k) S) as (R1 & R2); [exact Q|]. split; [exact R1|]. split; [intros _ SQ; apply R2; exact SQ|discriminate].
    - destruct (d_axes d k); [|discriminate]. injection S as <-. split; [exact Q|]. split; [intros _ SQ; exact SQ|discriminate].
    - destruct (scroll_inv _ _ _ _ _ S Q) as (R1 & R2). split; [exact R1|]. split; [auto|discriminate].
  Qed.
  Lemma acts_inv l : forall d d', acts d l = Ok d' -> square_inv d ->
    square_inv d' /\ (existsb is_new l = false -> squares d -> squares d').
  Proof.
    induction l as [|a l IH]; intros d d'; cbn [acts existsb].
    - intros K. injection K as <-. auto.
    - destruct (act_on d a) as [d1|] eqn:S; cbn [bind]; [|discriminate]. intros K Q.
      destruct (act_inv _ _ _ S Q) as (Q1 & Q2 & _). destruct (IH _ _ K Q1) as (Q3 & Q4). split; [exact Q3|].
      intros E. apply Bool.orb_false_iff in E. destruct E. auto.
  Qed.
  Lemma square_after f z l1 s l2 d : acts (bare f z) (l1 ++ Sized s :: l2) = Ok d -> (forall k, 0 < z k) -> existsb is_new l2 = false ->
    forall i a, nth_error (d_panes d) i = Some a -> positive (view (d_fig d) a) -> square_units (view (d_fig d) a).
  Proof.
    intros A Z N i a I. destruct (acts_app _ _ _ _ A) as (d1 & A1 & A2). cbn [acts] in A2.
    destruct (act_on d1 (Sized s)) as [d2|] eqn:S; cbn [bind] in A2; [|discriminate].
    assert (Q0 : square_inv (bare f z)) by (split; [exact Z|constructor]).
    destruct (acts_inv _ _ _ A1 Q0) as (Q1 & _). destruct (act_inv _ _ _ S Q1) as (Q2 & _ & Q3).
    destruct (acts_inv _ _ _ A2 Q2) as (_ & Q4). specialize (Q4 N (Q3 eq_refl)). unfold squares in Q4. rewrite Forall_forall in Q4.
    apply Q4. apply (nth_error_In _ _ I).
  Qed.
End Total.

(** ** The examples *)
Lemma color_here {C} f0 z (l : list (act C)) d x y k m : acts (bare f0 z) l = Ok d -> Forall not_zero (made l) ->
  fst (size (d_fig d)) <> 0 -> snd (size (d_fig d)) <> 0 ->
  at_point d x y = Some k -> nth_error (made l) k = Some m -> color_at d x y = Some (color_of m).
Proof.
  intros A NZ W H T M. apply (color_top _ _ _ _ _ _ _ A NZ W H). exists k, m.
  split; [now apply (at_point_top _ _ _ _ _ _ _ A NZ W H)|]. auto.
Qed.
Lemma made_none {C} (l : list (act C)) : existsb is_new l = false -> made l = [].
Proof. induction l as [|a l IH]; [reflexivity|]. destruct a; cbn; try discriminate; exact IH. Qed.
Lemma means_is dpi c e e' : means dpi c e -> e = e' -> means dpi c e'.
Proof. now intros H <-. Qed.
Lemma multiple_grid dpi : is_grid dpi halves halves [(0, 0); (0, 1); (1, 0); (1, 1)]%nat (made multiple).
Proof.
  assert (E1 : from_to (0, 0) (half, 0) = (half, 0)) by (unfold from_to; cbn [fst snd]; apply f_equal2; apply Qc_is_canon; vm_compute; reflexivity).
  assert (E2 : from_to (half, 0) (1, 0) = (half, 0)) by (unfold from_to; cbn [fst snd]; apply f_equal2; apply Qc_is_canon; vm_compute; reflexivity).
  split; [apply Permutation_refl|].
  cbn [made multiple]. repeat apply Forall2_cons; try apply Forall2_nil; cbn [is_cell fst snd];
    do 4 eexists; (split; [reflexivity|]); (split; [reflexivity|]); (split; [reflexivity|]); (split; [reflexivity|]);
    rewrite ?E1, ?E2; (split; [apply means_float|]); (split; [apply means_float|]); (split; apply means_float).
Qed.
Lemma half_le s : 0 < s -> 0 <= half * s /\ half * s <= s.
Proof. intros H. unfold half. toQ. lra. Qed.
Lemma halves_rise s : 0 < s -> rising (map (at_side s) halves).
Proof.
  intros H. destruct (half_le s H) as (A & B). cbn. unfold at_side. cbn [fst snd].
  replace (0 * s + 0) with (0 : Qc) by ring. replace (half * s + 0) with (half * s) by ring. replace (1 * s + 0) with s by ring. auto.
Qed.
Lemma band_half s x : 0 < s -> 0 <= x -> x < s -> in_band s halves (if qlt x (half * s) then 0 else 1)%nat x.
Proof.
  intros S A B. unfold in_band. destruct (qlt x (half * s)) eqn:E.
  - apply qlt_spec in E. exists (0, 0), (half, 0). do 2 (split; [reflexivity|]). unfold at_side. cbn [fst snd].
    replace (0 * s + 0) with (0 : Qc) by ring. replace (half * s + 0) with (half * s) by ring. auto.
  - apply qlt_false in E. exists (half, 0), (1, 0). do 2 (split; [reflexivity|]). unfold at_side. cbn [fst snd].
    replace (1 * s + 0) with s by ring. replace (half * s + 0) with (half * s) by ring. auto.
Qed.
Lemma multiple_colors f z l d x y : acts (bare f z) (multiple ++ l) = Ok d -> existsb is_new l = false ->
  let W := fst (size (d_fig d)) in let H := snd (size (d_fig d)) in
  0 <= x -> x < W -> 0 <= y -> y < H ->
  color_at d x y = Some (if qlt x (half * W) then if qlt y (half * H) then Red else Green
                         else if qlt y (half * H) then Blue else Yellow).
Proof.
  intros A N W H X1 X2 Y1 Y2.
  assert (PW : 0 < W) by (toQ; lra). assert (PH : 0 < H) by (toQ; lra).
  assert (M : made (multiple ++ l) = made multiple) by now rewrite made_app, (made_none l N), app_nil_r.
  assert (NZ : Forall not_zero (made (multiple ++ l))).
  { rewrite M. cbn [made multiple]. repeat apply Forall_cons; try apply Forall_nil; cbn [not_zero]; split; intros [K|K]; discriminate K. }
  pose proof (multiple_grid (f_dpi f)) as G. rewrite <- M in G.
  pose proof (fun k => proj1 (grid_cell _ _ _ _ _ _ _ x y k A G NZ (pos_nonzero _ PW) (pos_nonzero _ PH) (halves_rise _ PW) (halves_rise _ PH))) as T.
  pose proof (band_half W x PW X1 X2) as BX. pose proof (band_half H y PH Y1 Y2) as BY.
  set (i := (if qlt x (half * W) then 0 else 1)%nat) in *. set (j := (if qlt y (half * H) then 0 else 1)%nat) in *.
  set (k := (2 * i + j)%nat).
  assert (O : nth_error [(0, 0); (0, 1); (1, 0); (1, 1)]%nat k = Some (i, j)).
  { unfold k, i, j. destruct (qlt x (half * W)), (qlt y (half * H)); reflexivity. }
  assert (TK : at_point d x y = Some k) by (apply T; eauto).
  assert (MK : exists m, nth_error (made multiple) k = Some m /\ color_of m = (if qlt x (half * W) then if qlt y (half * H) then Red else Green
                         else if qlt y (half * H) then Blue else Yellow)).
  { unfold k, i, j. destruct (qlt x (half * W)), (qlt y (half * H)); eexists; split; reflexivity. }
  destruct MK as (m & MK & <-). rewrite <- M in MK. apply (color_here _ _ _ _ _ _ _ _ A NZ (pos_nonzero _ PW) (pos_nonzero _ PH) TK MK).
Qed.
Lemma sensible_more {C} (l1 : list (act C)) : forall n joined l2,
  (sensible n joined (l1 ++ l2) -> sensible n joined l1).
Proof.
  induction l1 as [|a l1 IH]; intros n joined l2; [easy|]. destruct a as [x y w h c|[s t]|k i|k|x y b]; cbn [app sensible]; intuition eauto.
Qed.
Lemma multiple_runs z l : existsb is_new l = false -> sensible 4 [] l ->
  exists f d, new_canvas (CInt 512) (CInt 512) (zq 100) = Ok f /\ acts (bare f z) (multiple ++ l) = Ok d /\
  0 < fst (size (d_fig d)) /\ 0 < snd (size (d_fig d)).
Proof.
  intros N S. destruct (new_canvas (CInt 512) (CInt 512) (zq 100)) as [f|e] eqn:E; [|vm_compute in E; discriminate E].
  assert (D : 0 < f_dpi f /\ 0 < fst (size f) /\ 0 < snd (size f)).
  { vm_compute in E. injection E as <-. repeat split; vm_compute; reflexivity. }
  destruct D as (D & W & H).
  assert (S' : sensible 0 [] (multiple ++ l)).
  { cbn [app multiple sensible]. repeat (split; [first [exact Logic.I | vm_compute; reflexivity]|]). exact S. }
  destruct (no_errors f z _ D W H S') as (d & A). exists f, d. split; [reflexivity|]. split; [exact A|].
  apply (stays_positive f z _ d D W H S' A).
Qed.

(** Which end up with a gap or an overlap. *)
Definition outcome_of (l : list (act hue)) (x y : Qc) : res (option hue) :=
  let* f := new_canvas (CInt 512) (CInt 512) (zq 100) in
  let* d := acts (bare f (fun _ => 1)) l in
  Ok (color_at d x y).
Lemma from_outcome l x y r : outcome_of l x y = Ok r ->
  exists f d, new_canvas (CInt 512) (CInt 512) (zq 100) = Ok f /\ acts (bare f (fun _ => 1)) l = Ok d /\ color_at d x y = r.
Proof.
  unfold outcome_of. destruct (new_canvas _ _ _) as [f|]; cbn [bind]; [|discriminate].
  destruct (acts _ _) as [d|] eqn:A; cbn [bind]; [|discriminate]. intros K. injection K as <-. eauto.
Qed.
Lemma pixels_gap : exists f d, new_canvas (CInt 512) (CInt 512) (zq 100) = Ok f /\
  acts (bare f (fun _ => 1)) (multiple_pixels ++ [Sized (q 1024 100, q 1024 100)]) = Ok d /\
  color_at d (zq 600) (zq 600) = None.
Proof. apply from_outcome. vm_compute. reflexivity. Qed.
Lemma strip_overlaps : exists f d d', new_canvas (CInt 512) (CInt 512) (zq 100) = Ok f /\
  acts (bare f (fun _ => 1)) strip_and_half = Ok d /\ acts (bare f (fun _ => 1)) (strip_and_half ++ [Sized (q 300 100, q 300 100)]) = Ok d' /\
  color_at d (half * zq 512) (zq 10) = Some Green /\ color_at d' (half * zq 300) (zq 10) = Some Red.
Proof.
  destruct (from_outcome strip_and_half (half * zq 512) (zq 10) (Some Green)) as (f & d & F & A & B); [vm_compute; reflexivity|].
  destruct (from_outcome (strip_and_half ++ [Sized (q 300 100, q 300 100)]) (half * zq 300) (zq 10) (Some Red)) as (f' & d' & F' & A' & B'); [vm_compute; reflexivity|].
  rewrite F in F'. injection F' as <-. exists f, d, d'. auto.
Qed.

Lemma size_now {C} f z (l : list (act C)) d : acts (bare f z) l = Ok d ->
  size (d_fig d) = (fst (inches_after (f_inches f) l) * f_dpi f, snd (inches_after (f_inches f) l) * f_dpi f).
Proof. intros A. destruct (reach _ _ _ _ A) as (F & _). rewrite F. reflexivity. Qed.
Lemma multiple_always z l : existsb is_new l = false -> sensible 4 [] l ->
  exists f d, new_canvas (CInt 512) (CInt 512) (zq 100) = Ok f /\ acts (bare f z) (multiple ++ l) = Ok d /\
  let W := fst (size (d_fig d)) in let H := snd (size (d_fig d)) in
  0 < W /\ 0 < H /\
  forall x y, 0 <= x -> x < W -> 0 <= y -> y < H ->
    color_at d x y = Some (if qlt x (half * W) then if qlt y (half * H) then Red else Green
                           else if qlt y (half * H) then Blue else Yellow).
Proof.
  intros N S. destruct (multiple_runs z l N S) as (f & d & F & A & W & H). exists f, d. split; [exact F|]. split; [exact A|].
  cbv zeta. split; [exact W|]. split; [exact H|]. intros x y. apply (multiple_colors f z l d x y A N).
Qed.
Lemma sidebar_grid dpi : is_grid dpi bar_edges ends [(0, 0); (1, 0)]%nat (made sidebar) /\ Forall not_zero (made sidebar) /\
  (forall s, zq 100 <= s -> rising (map (at_side s) bar_edges) /\ rising (map (at_side s) ends) /\
     at_side s (0, 0) = 0 /\ at_side s (1, 0) = s).
Proof.
  assert (Z0 : zq 0 = 0) by reflexivity. assert (O1 : from_to (0, 0) (1, 0) = (1, 0)) by (unfold from_to; cbn [fst snd]; apply f_equal2; ring).
  split; [|split].
  - split; [apply Permutation_refl|]. cbn [made sidebar]. apply Forall2_cons; [|apply Forall2_cons; [|apply Forall2_nil]]; cbn [is_cell fst snd].
    + exists (0, 0), (0, zq 100), (0, 0), (1, 0). do 4 (split; [reflexivity|]). rewrite O1. split; [apply (means_int dpi 0)|]. split; [apply (means_int dpi 0)|].
      split; [|apply means_float]. apply (means_is _ _ _ _ (means_int dpi 100)). unfold from_to. cbn [fst snd]. apply f_equal2; ring.
    + exists (0, zq 100), (1, 0), (0, 0), (1, 0). do 4 (split; [reflexivity|]). rewrite O1.
      split; [apply (means_is _ _ _ _ (means_measure dpi Pixel (zq 100) ltac:(discriminate))); apply f_equal2; [reflexivity|]; cbn; ring|].
      split; [apply (means_int dpi 0)|]. split; [|apply means_float].
      apply (means_is _ _ _ _ (means_plus dpi 1 Pixel (- zq 100) ltac:(discriminate))). unfold from_to. cbn [fst snd pixels_per]. apply f_equal2; ring.
  - cbn [made sidebar]. repeat apply Forall_cons; try apply Forall_nil; cbn [not_zero]; split; intros [K|K]; discriminate K.
  - intros s S. cbn [map bar_edges ends rising]. unfold at_side. cbn [fst snd].
    replace (0 * s + 0) with (0 : Qc) by ring. replace (1 * s + 0) with s by ring. replace (0 * s + zq 100) with (zq 100) by ring.
    assert (P : 0 <= zq 100) by (vm_compute; discriminate). repeat split; auto. now apply (Qcle_trans _ _ _ P).
Qed.
Lemma wheel_case : exists f d d', new_canvas (CInt 512) (CInt 512) (zq 100) = Ok f /\
  acts (bare f (fun _ => 1)) (multiple ++ [Join 0 0; Join 1 3]) = Ok d /\ act_on d (Wheel (zq 300) (zq 300) Up) = Ok d' /\
  on_top (d_fig d) (made (multiple ++ [Join 0 0; Join 1 3])) (zq 300) (zq 300) 3 /\ d_zoom d' 0%nat = 1 /\ d_zoom d' 1%nat = c_in.
Proof.
  destruct (new_canvas (CInt 512) (CInt 512) (zq 100)) as [f|] eqn:F; [|vm_compute in F; discriminate F].
  destruct (acts (bare f (fun _ => 1)) (multiple ++ [Join 0 0; Join 1 3])) as [d|] eqn:A.
  2:{ exfalso. vm_compute in F. injection F as <-. vm_compute in A. discriminate A. }
  destruct (act_on d (Wheel (zq 300) (zq 300) Up)) as [d'|] eqn:S.
  2:{ exfalso. vm_compute in F. injection F as <-. vm_compute in A. injection A as <-. vm_compute in S. discriminate S. }
  exists f, d, d'. do 3 (split; [reflexivity || assumption|]).
  assert (NZ : Forall not_zero (made (multiple ++ [Join 0 0; Join 1 3]))).
  { cbn [made multiple app]. repeat apply Forall_cons; try apply Forall_nil; cbn [not_zero]; split; intros [K|K]; discriminate K. }
  assert (G : fst (size (d_fig d)) <> 0 /\ snd (size (d_fig d)) <> 0 /\ at_point d (zq 300) (zq 300) = Some 3%nat).
  { clear S NZ. vm_compute in F. injection F as <-. vm_compute in A. injection A as <-. split; [|split]; vm_compute; congruence. }
  destruct G as (W & H & T). split; [now apply (at_point_top _ _ _ _ _ _ _ A NZ W H)|].
  destruct (wheel_zooms _ _ _ _ _ _ _ _ A NZ W H S) as (W1 & W2 & _).
  assert (ZZ : d_zoom d 0%nat = 1 /\ d_zoom d 1%nat = 1).
  { clear - F A. vm_compute in F. injection F as <-. vm_compute in A. injection A as <-. split; reflexivity. }
  split.
  - rewrite W2; [apply ZZ|]. intros i K. injection K as <-. rewrite <- (at_point_top _ _ _ _ _ _ _ A NZ W H), T. discriminate.
  - rewrite (W1 1%nat 3%nat); [|reflexivity|now apply (at_point_top _ _ _ _ _ _ _ A NZ W H)]. rewrite (proj2 ZZ). vm_compute. reflexivity.
Qed.
